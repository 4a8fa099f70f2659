(** Theorems for combined sources. *)
From Coq Require Import Reals Lra Permutation.
From Verif Require Import Py PyFacts PyStr PyStrFacts RList M_Train L_Train M_Source S_Source L_Source.
Open Scope R_scope.

Section Multi.
Variables (late : bool) (order : list string) (subs : dict source) (names : list string) (split : dict R -> list R -> result (dict (list R)))
  (ids : list cell) (row : list R).

Lemma get_ok sources c : get_tensors late order subs names sources split ids row = Ok c -> exists named params rs,
  indexer names row = Ok named /\ split named row = Ok params /\ Forall2 (Eval late order subs params) sources rs /\ rs <> [] /\ Combination ids rs c.
Proof.
  unfold get_tensors. intros H. apply bind_ok in H. destruct H as (named & E1 & H). apply bind_ok in H. destruct H as (params & E2 & H).
  destruct (first_missing subs order); [discriminate|]. apply bind_ok in H. destruct H as (a & E3 & H). apply loop_ok in E3.
  destruct E3 as (rs & HF & ->). exists named, params, rs. assert (Hr : rs <> []) by (intros ->; discriminate).
  repeat (split; [assumption|]). apply finish_combination; assumption.
Qed.

(** C30: the result is the combination of one result for every source. *)
Theorem C30_sum sources c : get_tensors late order subs names sources split ids row = Ok c ->
  exists named params rs, split named row = Ok params /\ rs <> [] /\
    Forall2 (fun nb r => exists base, Evaluated subs params base (fst nb) r) sources rs /\ Combination ids rs c.
Proof.
  intros H. destruct (get_ok _ _ H) as (named & params & rs & H1 & H2 & H3 & H4 & H5). exists named, params, rs. repeat (split; [assumption|]).
  split; [|exact H5]. clear - H3. induction H3 as [|nb r s rs HE HF IH]; constructor; [|exact IH].
  destruct HE as (sub & prow & e & E1 & E2 & E3 & E4 & E5). unfold evaluator in E4. destruct late.
  - destruct (rev order) as [|b l]; [discriminate|]. apply lookup_ok in E4. exists b, e, prow. auto.
  - apply lookup_ok in E4. exists (snd nb), e, prow. auto.
Qed.

(** What holds for all results of the sources holds for the results combined. *)
Lemma evaluated_all sources c (P : tensors -> Prop) : (forall b sub prow r, dget b subs = Some sub -> s_eval sub prow = Ok r -> P r) ->
  get_tensors late order subs names sources split ids row = Ok c -> exists rs, rs <> [] /\ Forall P rs /\ Combination ids rs c.
Proof.
  intros HP H. destruct (C30_sum _ _ H) as (_ & params & rs & _ & Hr & HF & HC). exists rs. repeat (split; [assumption|]). split; [|exact HC].
  clear - HP HF. induction HF as [|nb r s rs (b & sub & prow & E1 & E2 & E3) HF IH]; constructor; [|exact IH]. eapply HP; eassumption.
Qed.

Lemma weighted_le {A} (f g : A -> R) l m : (forall x, In x l -> 0 <= f x /\ g x <= m) -> Rsum (map (fun x => g x * f x) l) <= m * Rsum (map f l).
Proof.
  induction l as [|x l IH]; intros H; [cbn; lra|]. cbn [map]. rewrite !Rsum_cons. destruct (H x (or_introl eq_refl)) as [H1 H2].
  specialize (IH (fun y Hy => H y (or_intror Hy))). nra.
Qed.

Lemma weighted_ge {A} (f g : A -> R) l m : (forall x, In x l -> 0 <= f x /\ m <= g x) -> m * Rsum (map f l) <= Rsum (map (fun x => g x * f x) l).
Proof.
  induction l as [|x l IH]; intros H; [cbn; lra|]. cbn [map]. rewrite !Rsum_cons. destruct (H x (or_introl eq_refl)) as [H1 H2].
  specialize (IH (fun y Hy => H y (or_intror Hy))). nra.
Qed.

(** C30: the combined density is between zero and the largest density, and below it. *)
Theorem C30_density sources c m j x :
  (forall b sub prow r, dget b subs = Some sub -> s_eval sub prow = Ok r -> Sensible r /\ Shaped ids r /\ density r j <= m) ->
  get_tensors late order subs names sources split ids row = Ok c -> nth_error ids j = Some x ->
  exists p, nth_error (c_pdf c) j = Some p /\ 0 <= p <= m * (c_charges c x / (c_charges c x + 1 / 1000000)) /\ p <= m /\ (0 < m -> p < m).
Proof.
  intros HP H Hj. destruct (evaluated_all sources c _ HP H) as (rs & Hr & HF & (A1 & A2 & A3 & A4 & A5)). rewrite Forall_forall in HF.
  assert (HS : Forall (Shaped ids) rs) by (rewrite Forall_forall; intros r Hrr; apply HF; exact Hrr). destruct (A5 HS) as [HL HN].
  assert (Hjl : (j < length ids)%nat) by (apply nth_error_Some; congruence).
  exists (nth j (c_pdf c) 0). split; [apply nth_error_nth'; lia|]. rewrite (HN j x Hj), A1.
  assert (HQ : 0 <= total rs x).
  { apply Rsum_nonneg. apply Forall_forall. intros y Hy. apply in_map_iff in Hy. destruct Hy as (r & <- & Hrr). destruct (HF r Hrr) as ((Hc & _) & _). apply Hc. }
  assert (HD : forall r, In r rs -> 0 <= density r j).
  { intros r Hrr. destruct (HF r Hrr) as ((_ & Hp) & Hsh & _). unfold Shaped in Hsh. unfold density. apply Hp, nth_In. lia. }
  assert (H1 : Rsum (map (fun r => density r j * t_charges r x) rs) <= m * total rs x).
  { apply (weighted_le (fun r => t_charges r x) (fun r => density r j)). intros r Hrr. destruct (HF r Hrr) as ((Hc & _) & _ & Hm). split; [apply Hc|exact Hm]. }
  assert (H2 : 0 * total rs x <= Rsum (map (fun r => density r j * t_charges r x) rs)).
  { apply (weighted_ge (fun r => t_charges r x) (fun r => density r j)). intros r Hrr. destruct (HF r Hrr) as ((Hc & _) & _ & _). split; [apply Hc|]. apply HD. exact Hrr. }
  assert (Hm : 0 <= m) by (destruct rs as [|r rs]; [congruence|]; pose proof (HD r (or_introl eq_refl)); destruct (HF r (or_introl eq_refl)) as (_ & _ & ?); lra).
  set (S := Rsum (map (fun r => density r j * t_charges r x) rs)) in *. set (Q := total rs x) in *.
  assert (He : 0 < 1 / 1000000) by lra. set (e := 1 / 1000000) in *. clearbody e S Q.
  assert (HI : 0 < / (Q + e)) by (apply Rinv_0_lt_compat; lra).
  assert (HE : (Q + e) * / (Q + e) = 1) by (apply Rinv_r; lra). unfold Rdiv. set (I := / (Q + e)) in *. clearbody I.
  assert (HW : Q * I < 1) by nra. assert (HU : S * I <= m * (Q * I)) by nra. split; [split; [nra|exact HU]|]. split; [nra|]. intros Hm0. nra.
Qed.

(** C30: the excluded fraction is an average, undefined without charge. *)
Theorem C30_exclusion sources c lo hi x :
  (forall b sub prow r, dget b subs = Some sub -> s_eval sub prow = Ok r -> 0 <= t_charges r x /\ lo <= t_excl r x <= hi) ->
  get_tensors late order subs names sources split ids row = Ok c ->
  (c_charges c x = 0 -> c_excl c x = None) /\ (c_charges c x <> 0 -> exists e, c_excl c x = Some e /\ lo <= e <= hi).
Proof.
  intros HP H. destruct (evaluated_all sources c _ HP H) as (rs & Hr & HF & (A1 & A2 & A3 & A4 & A5)). rewrite Forall_forall in HF. rewrite A1.
  split; [apply A3|]. intros Hx. rewrite A4 by exact Hx. eexists. split; [reflexivity|].
  assert (HQ : 0 <= total rs x).
  { apply Rsum_nonneg. apply Forall_forall. intros y Hy. apply in_map_iff in Hy. destruct Hy as (r & <- & Hrr). apply (HF r Hrr). }
  assert (H1 : Rsum (map (fun r => t_excl r x * t_charges r x) rs) <= hi * total rs x).
  { apply (weighted_le (fun r => t_charges r x) (fun r => t_excl r x)). intros r Hrr. specialize (HF r Hrr). tauto. }
  assert (H2 : lo * total rs x <= Rsum (map (fun r => t_excl r x * t_charges r x) rs)).
  { apply (weighted_ge (fun r => t_charges r x) (fun r => t_excl r x)). intros r Hrr. specialize (HF r Hrr). tauto. }
  set (S := Rsum (map (fun r => t_excl r x * t_charges r x) rs)) in *. set (Q := total rs x) in *.
  assert (HI : 0 < / Q) by (apply Rinv_0_lt_compat; lra). assert (HE : Q * / Q = 1) by (apply Rinv_r; lra). unfold Rdiv. set (I := / Q) in *.
  assert (S * I <= hi * Q * I) by (apply Rmult_le_compat_r; lra). assert (lo * Q * I <= S * I) by (apply Rmult_le_compat_r; lra).
  replace (hi * Q * I) with (hi * (Q * I)) in * by ring. replace (lo * Q * I) with (lo * (Q * I)) in * by ring. rewrite HE in *. lra.
Qed.

(** C30: the order of the sources does not matter. *)
Theorem C30_order sources sources' c :
  (forall b sub prow r, dget b subs = Some sub -> s_eval sub prow = Ok r -> Shaped ids r) -> Permutation sources sources' ->
  get_tensors late order subs names sources split ids row = Ok c ->
  exists c', get_tensors late order subs names sources' split ids row = Ok c' /\ Same c c'.
Proof.
  intros HS HP H. pose proof H as H0. unfold get_tensors in H0.
  destruct (get_ok _ _ H) as (named & params & rs & E1 & E2 & HF & Hr & HC). destruct (eval_perm _ _ _ _ _ _ HP _ HF) as (rs' & HF' & HP').
  assert (Hr' : rs' <> []) by (intros ->; apply Permutation_sym, Permutation_nil in HP'; congruence).
  destruct (finish_ok ids rs' Hr') as (c' & Ec). exists c'. split.
  - unfold get_tensors. rewrite E1 in *. cbn [bind] in *. rewrite E2 in *. cbn [bind] in *. destruct (first_missing subs order); [discriminate|].
    assert (EL : loop_sources late order subs ids params sources' None = Ok (fold_left (accumulate ids) rs' None)) by (apply loop_ok; eauto).
    rewrite EL. cbn [bind]. exact Ec.
  - apply (combination_perm ids rs rs' c c' HP'); [|exact HC|apply finish_combination; assumption].
    clear - HS HF. induction HF as [|nb r s rs HE HF IH]; constructor; [|exact IH].
    destruct HE as (sub & prow & e & X1 & X2 & X3 & X4 & X5). unfold evaluator in X4. destruct late.
    + destruct (rev order) as [|b l]; [discriminate|]. apply lookup_ok in X4. eapply HS; eassumption.
    + apply lookup_ok in X4. eapply HS; eassumption.
Qed.

(** C30: with a single source the charges are those of the source, the densities
    are below those of the source. *)
Theorem C30_single name base c :
  (forall b sub prow r, dget b subs = Some sub -> s_eval sub prow = Ok r -> Shaped ids r /\ Sensible r) ->
  get_tensors late order subs names [(name, base)] split ids row = Ok c ->
  exists params b r, Evaluated subs params b name r /\ (forall x, c_charges c x = t_charges r x) /\ (forall x, c_var c x = t_var r x) /\
    forall j x, nth_error ids j = Some x -> nth j (c_pdf c) 0 = density r j * (t_charges r x / (t_charges r x + 1 / 1000000)) /\
      (0 < density r j -> nth j (c_pdf c) 0 < density r j).
Proof.
  intros HS H. destruct (C30_sum _ _ H) as (_ & params & rs & _ & Hr & HF & (A1 & A2 & A3 & A4 & A5)). inversion HF as [|? r ? rs' HE HF']; subst.
  inversion HF'; subst. destruct HE as (b & HE). exists params, b, r. split; [exact HE|]. destruct HE as (sub & prow & E1 & E2 & E3).
  destruct (HS _ _ _ _ E1 E3) as [Hsh [Hc Hp]]. split; [intros x; rewrite A1; unfold total; cbn; lra|]. split; [intros x; rewrite A2; cbn; lra|].
  intros j x Hj. destruct (A5 (Forall_cons _ Hsh (Forall_nil _))) as [HL HN]. rewrite (HN j x Hj). unfold total. cbn [map]. rewrite !Rsum_cons. cbn [Rsum fold_right].
  rewrite !Rplus_0_r. specialize (Hc x). set (q := t_charges r x) in *.
  assert (He : 0 < 1 / 1000000) by lra. set (e := 1 / 1000000) in *. clear HN HF A1 A2 A3 A4 A5 H. clearbody e q.
  assert (HI : 0 < / (q + e)) by (apply Rinv_0_lt_compat; lra).
  assert (HE : (q + e) * / (q + e) = 1) by (apply Rinv_r; lra). unfold Rdiv. set (I := / (q + e)) in *. clearbody I.
  split; [ring|]. intros Hd. assert (q * I < 1) by nra. nra.
Qed.

(** C30: without sources there is no result, and if nothing else is wrong the
    exception is a ValueError. *)
Theorem C30_no_sources : (forall c, get_tensors late order subs names [] split ids row <> Ok c) /\
  forall named params, indexer names row = Ok named -> split named row = Ok params -> (forall b, In b order -> dget b subs <> None) ->
    get_tensors late order subs names [] split ids row = Err ValueError.
Proof.
  split; [intros c H; destruct (get_ok _ _ H) as (nm & pr & rs & ? & ? & HF & Hr & ?); inversion HF; subst; congruence|].
  intros named params E1 E2 HB. unfold get_tensors. rewrite E1. cbn [bind]. rewrite E2. cbn [bind].
  rewrite (proj2 (first_missing_false subs order) HB). reflexivity.
Qed.

(** C30: evaluation fails with a KeyError if a base is not among the
    sub-components. *)
Theorem C30_missing_base sources named params b : indexer names row = Ok named -> split named row = Ok params -> In b order -> dget b subs = None ->
  get_tensors late order subs names sources split ids row = Err KeyError.
Proof.
  intros E1 E2 Hb HN. unfold get_tensors. rewrite E1. cbn [bind]. rewrite E2. cbn [bind].
  destruct (first_missing subs order) eqn:E; [reflexivity|]. exfalso. exact (proj1 (first_missing_false subs order) E b Hb HN).
Qed.
End Multi.

(** C67: the exact conditions under which a combined source with own variables
    can be evaluated. *)
Theorem C67_success order subs names sources split ids row :
  (exists c, get_tensors false order subs names sources split ids row = Ok c) <->
  exists named params, indexer names row = Ok named /\ split named row = Ok params /\ sources <> [] /\
    (forall b, In b order -> dget b subs <> None) /\
    forall n b, In (n, b) sources -> exists sub prow r, dget b subs = Some sub /\ dget n params = Some prow /\
      length prow = length (s_names sub) /\ s_eval sub prow = Ok r.
Proof.
  split.
  - intros (c & H). pose proof H as H0. destruct (get_ok _ _ _ _ _ _ _ _ _ H) as (named & params & rs & H1 & H2 & H3 & H4 & _).
    exists named, params. split; [exact H1|]. split; [exact H2|]. split; [intros ->; inversion H3; subst; congruence|]. split.
    + unfold get_tensors in H0. rewrite H1 in H0. cbn [bind] in H0. rewrite H2 in H0. cbn [bind] in H0.
      destruct (first_missing subs order) eqn:E; [discriminate|]. exact (proj1 (first_missing_false subs order) E).
    + intros n b Hin. destruct (Forall2_in_l _ _ _ _ H3 Hin) as (r & _ & (sub & prow & e & X1 & X2 & X3 & X4 & X5)). cbn [fst snd] in *.
      unfold evaluator in X4. apply lookup_ok in X4. exists sub, prow, r. repeat (split; [assumption|]). congruence.
  - intros (named & params & H1 & H2 & H3 & HB & HS).
    assert (HF : exists rs, Forall2 (Eval false order subs params) sources rs).
    { clear H3. induction sources as [|[n b] sources IH]; [exists []; constructor|]. destruct IH as (rs & HF); [intros; apply HS; right; assumption|].
      destruct (HS n b (or_introl eq_refl)) as (sub & prow & r & X1 & X2 & X3 & X4). exists (r :: rs). constructor; [|exact HF].
      exists sub, prow, sub. cbn [fst snd]. repeat (split; [assumption|]). split; [|assumption]. unfold evaluator. apply lookup_ok. exact X1. }
    destruct HF as (rs & HF). assert (Hr : rs <> []) by (intros ->; inversion HF; subst; congruence). destruct (finish_ok ids rs Hr) as (c & Ec). exists c.
    unfold get_tensors. rewrite H1. cbn [bind]. rewrite H2. cbn [bind]. rewrite (proj2 (first_missing_false subs order) HB).
    rewrite (proj2 (loop_ok false order subs ids params sources None _) (ex_intro _ rs (conj HF eq_refl))). exact Ec.
Qed.

(** C67: with own variables every source is evaluated by its base. *)
Theorem C67_own order subs names sources split ids row c : get_tensors false order subs names sources split ids row = Ok c ->
  exists named params rs, split named row = Ok params /\ Forall2 (fun nb r => Evaluated subs params (snd nb) (fst nb) r) sources rs /\ Combination ids rs c.
Proof.
  intros H. destruct (get_ok _ _ _ _ _ _ _ _ _ H) as (named & params & rs & H1 & H2 & H3 & H4 & H5). exists named, params, rs. split; [exact H2|].
  split; [|exact H5]. clear - H3. induction H3 as [|nb r s rs HE HF IH]; constructor; [|exact IH].
  destruct HE as (sub & prow & e & E1 & E2 & E3 & E4 & E5). unfold evaluator in E4. apply lookup_ok in E4. exists e, prow. auto.
Qed.

(** C67: with late binding all sources are evaluated by the base that comes last. *)
Theorem C67_late order b subs names sources split ids row c : get_tensors true (order ++ [b]) subs names sources split ids row = Ok c ->
  exists named params rs, split named row = Ok params /\ Forall2 (fun nb r => Evaluated subs params b (fst nb) r) sources rs /\ Combination ids rs c.
Proof.
  intros H. destruct (get_ok _ _ _ _ _ _ _ _ _ H) as (named & params & rs & H1 & H2 & H3 & H4 & H5). exists named, params, rs. split; [exact H2|].
  split; [|exact H5]. clear - H3. induction H3 as [|nb r s rs HE HF IH]; constructor; [|exact IH].
  destruct HE as (sub & prow & e & E1 & E2 & E3 & E4 & E5). unfold evaluator in E4. rewrite rev_app_distr in E4. cbn in E4. apply lookup_ok in E4. exists e, prow. auto.
Qed.

(** C67: with one base both agree. *)
Theorem C67_one_base b subs names sources split ids row : (forall s, In s sources -> snd s = b) ->
  get_tensors true [b] subs names sources split ids row = get_tensors false [b] subs names sources split ids row.
Proof.
  intros HB. unfold get_tensors. destruct (indexer names row) as [named|]; [|reflexivity]. cbn [bind]. destruct (split named row) as [params|]; [|reflexivity].
  cbn [bind]. destruct (first_missing subs [b]); [reflexivity|].
  assert (E : forall s a, (forall x, In x s -> snd x = b) -> loop_sources true [b] subs ids params s a = loop_sources false [b] subs ids params s a).
  { induction s as [|[n bb] s IH]; intros a Hs; [reflexivity|]. cbn [loop_sources]. pose proof (Hs _ (or_introl eq_refl)) as E. cbn in E. subst bb.
    change (evaluator true [b] subs b) with (evaluator false [b] subs b).
    destruct (lookup b subs); [|reflexivity]. cbn [bind]. destruct (lookup n params); [|reflexivity]. cbn [bind]. destruct (indexer _ _); [|reflexivity]. cbn [bind].
    destruct (evaluator false [b] subs b); [|reflexivity]. cbn [bind]. destruct (s_eval _ _); [|reflexivity]. cbn [bind]. apply IH. intros x Hx. apply Hs. right. exact Hx. }
  rewrite E by exact HB. reflexivity.
Qed.

(** A source with constant charge. *)
Definition lamp (q : R) : source := {| s_names := ["e"%string];
  s_eval := fun row => Ok {| t_charges := fun _ => q; t_var := fun _ => 1; t_excl := fun _ => 0; t_pdf := [1/2] |} |}.
Definition two_subs : dict source := [("bright", lamp 5); ("dim", lamp 1)]%string.
Definition two_sources : dict string := [("one", "bright"); ("two", "dim")]%string.
Definition two_split (_ : dict R) (row : list R) : result (dict (list R)) := Ok [("one", [nth 0 row 0]); ("two", [nth 1 row 0])]%string.

(** C67: with two bases and late binding the results are wrong, and depend on
    the order of the set. *)
Theorem C67_refuted : exists subs names sources split ids row c1 c2 c3,
  get_tensors false ["bright"; "dim"]%string subs names sources split ids row = Ok c1 /\
  get_tensors true ["bright"; "dim"]%string subs names sources split ids row = Ok c2 /\
  get_tensors true ["dim"; "bright"]%string subs names sources split ids row = Ok c3 /\
  c_charges c1 (0, 0)%nat = 6 /\ c_charges c2 (0, 0)%nat = 2 /\ c_charges c3 (0, 0)%nat = 10.
Proof.
  exists two_subs, ["a"; "b"]%string, two_sources, two_split, [(0, 0)%nat], [3; 4]. do 3 eexists.
  split; [cbn; reflexivity|]. split; [cbn; reflexivity|]. split; [cbn; reflexivity|]. cbn. repeat split; lra.
Qed.

(** Examples for C30. *)
Example C30_case : exists c, get_tensors false ["bright"; "dim"]%string two_subs ["a"; "b"]%string two_sources two_split [(0, 0)%nat] [3; 4] = Ok c.
Proof. eexists. cbn. reflexivity. Qed.
Example C30_case_missing : exists c, get_tensors false ["bright"; "dim"]%string [("bright", lamp 5)]%string ["a"; "b"]%string [("one", "bright")]%string two_split [(0, 0)%nat] [3; 4] = c /\ c = Err KeyError.
Proof.
  eexists. split; [reflexivity|]. destruct (indexer ["a"; "b"]%string [3; 4]) as [named|] eqn:E; [|discriminate].
  eapply (C30_missing_base _ _ _ _ _ _ _ _ named _ "dim"%string E); [reflexivity|cbn; auto|reflexivity].
Qed.
Example C30_case_sensible b sub prow r : dget b two_subs = Some sub -> s_eval sub prow = Ok r -> Sensible r /\ Shaped [(0, 0)%nat] r /\ density r 0 <= 1 / 2.
Proof.
  unfold two_subs. cbn [dget]. intros Hb He.
  assert (HL : exists q, 0 <= q /\ sub = lamp q).
  { destruct (String.eqb b "bright"); [injection Hb as <-; exists 5; split; [lra|reflexivity]|].
    destruct (String.eqb b "dim"); [injection Hb as <-; exists 1; split; [lra|reflexivity]|discriminate]. }
  destruct HL as (q & Hq & ->). cbn in He. injection He as <-. unfold Sensible, Shaped, density. cbn.
  split; [split; [auto|intros p [<-|[]]; lra]|]. split; [reflexivity|lra].
Qed.

(** ** C31: independent sources *)

(** C31: the parameter vector is cut into the blocks of the sources, in the
    order of the declared names. *)
Theorem C31_partition subs sources names row named : NoDup (dkeys sources) -> independent_parameters subs sources = Ok names ->
  length row = length names ->
  exists d, independent_split subs sources named row = Ok d /\
    concat (map (fun c => match dget c d with Some b => b | None => [] end) (ssort (dkeys sources))) = row /\
    forall s, In s (dkeys sources) -> exists b sub block, dget s sources = Some b /\ dget b subs = Some sub /\ dget s d = Some block /\
      length block = length (s_names sub) /\
      forall k v, nth_error (s_names sub) k = Some v -> exists p, nth_error names p = Some (s ++ "_" ++ v)%string /\ nth_error block k = nth_error row p.
Proof.
  intros HN HP HL. unfold independent_parameters in HP. apply names_ok in HP. destruct HP as [EN HX].
  destruct (blocks_ok subs sources row _ (ssort_nodup _ HN) HX 0 []) as (d & E & HO & HB). exists d. split; [exact E|].
  rewrite EN, names_length in HL. split.
  - rewrite (blocks_concat subs sources row _ d HL) with (l1 := []); [reflexivity| |reflexivity]. intros l1 c l2 El. apply HB in El. exact El.
  - intros s Hs. apply (proj2 (ssort_in _ _)) in Hs. destruct (HX s Hs) as (b & sub & Eb & Es). apply in_split in Hs. destruct Hs as (l1 & l2 & El).
    assert (ENS : names_of subs sources s = s_names sub) by (unfold names_of; rewrite Eb, Es; reflexivity).
    pose proof (HB _ _ _ El) as Hblock. cbn [Nat.add] in Hblock. exists b, sub. eexists. split; [exact Eb|]. split; [exact Es|]. split; [exact Hblock|].
    rewrite ENS. rewrite El, size_app in HL. cbn [size fold_right] in HL. fold (size subs sources l2) in HL. rewrite ENS in HL.
    split; [rewrite firstn_length, skipn_length; lia|].
    intros k v Hk. exists (size subs sources l1 + k)%nat. assert (Hkl : (k < length (s_names sub))%nat) by (apply nth_error_Some; congruence). split.
    + rewrite EN, El, flat_map_app. rewrite nth_error_app2 by (rewrite names_length; lia). rewrite names_length.
      replace (size subs sources l1 + k - size subs sources l1)%nat with k by lia. cbn [flat_map].
      rewrite nth_error_app1 by (rewrite map_length, ENS; lia). rewrite ENS. apply (map_nth_error (fun v => (s ++ "_" ++ v)%string)). exact Hk.
    + clear - Hkl. revert k Hkl. generalize (length (s_names sub)) as n. generalize (size subs sources l1) as m. intros m n k Hk.
      assert (E1 : forall (l : list R) n k, (k < n)%nat -> nth_error (firstn n l) k = nth_error l k).
      { induction l as [|x l IH]; intros n' k' H; [destruct n', k'; reflexivity|]. destruct n' as [|n']; [lia|]. destruct k' as [|k']; [reflexivity|]. cbn. apply IH. lia. }
      assert (E2 : forall m (l : list R) k, nth_error (skipn m l) k = nth_error l (m + k)).
      { induction m0 as [|m0 IH]; intros l k'; [reflexivity|]. destruct l as [|x l]; [destruct k'; reflexivity|]. cbn. apply IH. }
      rewrite E1 by exact Hk. apply E2.
Qed.

(** C31: the names are different if no source name contains an underscore and
    the names of every base are different. *)
Theorem C31_names subs sources names : NoDup (dkeys sources) -> (forall s, In s (dkeys sources) -> plain s) ->
  (forall b sub, dget b subs = Some sub -> NoDup (s_names sub)) -> independent_parameters subs sources = Ok names -> NoDup names.
Proof.
  intros HN Hp Hb HP. unfold independent_parameters in HP. apply names_ok in HP. destruct HP as [-> HX].
  assert (Hs : forall s, In s (ssort (dkeys sources)) -> plain s) by (intros s H; apply Hp; exact (proj1 (ssort_in _ _) H)).
  pose proof (ssort_nodup _ HN) as HS. revert HS Hs HX. generalize (ssort (dkeys sources)) as l.
  induction l as [|c l IH]; intros HS Hs HX; [constructor|]. cbn [flat_map]. inversion HS as [|? ? Hc HS']; subst.
  assert (HA : forall (a b : list string), NoDup a -> NoDup b -> (forall x, In x a -> ~ In x b) -> NoDup (a ++ b)).
  { induction a as [|x a IHa]; intros b0 Na Nb Hd; [exact Nb|]. inversion Na; subst. cbn. constructor.
    - intros H. apply in_app_or in H. destruct H as [H|H]; [contradiction|]. exact (Hd x (or_introl eq_refl) H).
    - apply IHa; [assumption|assumption|]. intros y Hy. apply Hd. right. exact Hy. }
  apply HA.
  - apply nodup_map.
    + intros v w H. apply append_inj_l in H. injection H as H. exact H.
    + destruct (HX c (or_introl eq_refl)) as (b & s & E1 & E2). unfold names_of. rewrite E1, E2. eapply Hb. exact E2.
  - apply IH; [exact HS'| |]; intros s Hin; [apply Hs|apply HX]; right; exact Hin.
  - intros x Hx Hy. apply in_map_iff in Hx. destruct Hx as (v & <- & Hv). apply in_flat_map in Hy. destruct Hy as (c' & Hc' & Hw). apply in_map_iff in Hw.
    destruct Hw as (w & E & Hw). apply plain_split in E; [|apply Hs; right; exact Hc'|apply Hs; left; reflexivity]. destruct E as [-> _]. contradiction.
Qed.

(** C31: in general two sources can produce the same name; the named
    parameters are then fewer than the values. *)
Theorem C31_refuted : exists subs sources names row named, NoDup (dkeys sources) /\ (forall b sub, dget b subs = Some sub -> NoDup (s_names sub)) /\
  independent_parameters subs sources = Ok names /\ indexer names row = Ok named /\ ~ NoDup names /\ length named <> length row.
Proof.
  exists [("p", {| s_names := ["b_c"]; s_eval := fun _ => Err ValueError |}); ("q", {| s_names := ["c"]; s_eval := fun _ => Err ValueError |})]%string,
    [("a", "p"); ("a_b", "q")]%string. do 1 eexists. exists [1; 2]. eexists.
  split; [repeat constructor; cbn; intuition discriminate|]. split.
  - intros b sub. cbn [dget]. destruct (String.eqb b "p"); [intros H; injection H as <-; repeat constructor; intros []|].
    destruct (String.eqb b "q"); [intros H; injection H as <-; repeat constructor; intros []|discriminate].
  - split; [cbn; reflexivity|]. split; [cbn; reflexivity|]. split; [|cbn; discriminate]. intros H. inversion H as [|? ? Hn _]. apply Hn. left. reflexivity.
Qed.

Example C31_case : exists names, independent_parameters two_subs two_sources = Ok names /\ NoDup (dkeys two_sources) /\
  (forall s, In s (dkeys two_sources) -> plain s) /\ length [3; 4] = length names.
Proof.
  eexists. split; [cbn; reflexivity|]. split; [repeat constructor; cbn; intuition discriminate|]. split; [|reflexivity].
  intros s [<-|[<-|[]]]; cbn; intuition discriminate.
Qed.

(** ** C32: systematics parameters of a track *)

(** C32: the sub-sources receive their own parameters, followed by the last
    parameters, or by all of them if there are no systematics parameters. *)
Theorem C32_appended format c row named : indexer (track_names format c) row = Ok named ->
  exists d pre tail, track_split c named row = Ok d /\ row = pre ++ tail /\
    length tail = (if Nat.eqb (num_snowstorm c) 0 then length row else num_snowstorm c) /\
    (exists own, dget "track" d = Some (own ++ tail) /\ length own = 9%nat) /\
    forall i, (i < num_cascades c)%nat -> exists own, dget (cascade_name i) d = Some (own ++ tail) /\ length own = 7%nat.
Proof.
  intros HI. destruct (track_split_total _ _ _ _ HI) as (d & E). exists d.
  destruct (track_split_ok _ _ _ _ E) as (x & y & z & ze & az & t & ds & de & en & st & px & py & pz & pt & ? & ? & ? & ? & ? & ? & ? & ? & ? & ? & EA & ET & EC0 & EC).
  assert (HL : length row = length (track_names format c)) by (apply indexer_width; eauto).
  assert (HS : (num_snowstorm c <= length (track_names format c))%nat).
  { unfold track_names. rewrite !app_length. unfold num_snowstorm.
    assert (E0 : forall l n, fold_left (fun n p => (n + snd p)%nat) l n = (n + length (flat_map (fun p : string * nat => map (format (fst p)) (seq 0 (snd p))) l))%nat).
    { induction l as [|p l IH]; intros n; cbn [fold_left flat_map]; [cbn; lia|]. rewrite IH, app_length, map_length, seq_length. lia. }
    rewrite E0. lia. }
  exists (if Nat.eqb (num_snowstorm c) 0 then [] else firstn (length row - num_snowstorm c) row), (last_params (num_snowstorm c) row).
  split; [exact E|]. unfold last_params at 1 2. destruct (Nat.eqb_spec (num_snowstorm c) 0) as [E0|E0].
  - split; [reflexivity|]. split; [reflexivity|]. split; [eexists; split; [exact ET|reflexivity]|]. intros [|i] Hi.
    + destruct (EC0 ltac:(lia)) as (e0 & _ & Hc). eexists. split; [exact Hc|reflexivity].
    + destruct (EC (S i) ltac:(lia)) as (? & ? & ? & ? & ? & ? & _ & _ & _ & Hc). eexists. split; [exact Hc|reflexivity].
  - split; [symmetry; apply firstn_skipn|]. split; [rewrite skipn_length; lia|]. split; [eexists; split; [exact ET|reflexivity]|]. intros [|i] Hi.
    + destruct (EC0 ltac:(lia)) as (e0 & _ & Hc). eexists. split; [exact Hc|reflexivity].
    + destruct (EC (S i) ltac:(lia)) as (? & ? & ? & ? & ? & ? & _ & _ & _ & Hc). eexists. split; [exact Hc|reflexivity].
Qed.

(** C32: a track without systematics parameters, whose track source has the nine
    parameters it is given, cannot be evaluated at all. *)
Theorem C32_unusable format late order c subs ids row track : num_snowstorm c = 0%nat ->
  dget "track" subs = Some track -> length (s_names track) = 9%nat -> (forall b, In b order -> dget b subs <> None) ->
  get_tensors late order subs (track_names format c) (track_sources c) (track_split c) ids row = Err ValueError.
Proof.
  intros H0 HT H9 HO. apply first_missing_false in HO. unfold get_tensors. destruct (indexer (track_names format c) row) as [named|e] eqn:HI.
  - cbn [bind]. destruct (C32_appended _ _ _ _ HI) as (d & pre & tail & E & ER & EL & (own & Ed & Hown) & _). rewrite E. cbn [bind]. rewrite HO.
    unfold track_sources. cbn [app loop_sources]. unfold lookup. rewrite HT. cbn [bind]. rewrite Ed. cbn [bind]. unfold indexer at 1.
    rewrite H0 in EL. cbn in EL. assert (HL : length row = length (track_names format c)) by (apply indexer_width; eauto).
    unfold track_names in HL. cbn [app length] in HL. rewrite app_length, H9. destruct (Nat.eqb_spec (length own + length tail) 9) as [Eq|Eq]; [lia|]. reflexivity.
  - unfold indexer in HI. destruct (Nat.eqb (length row) (length (track_names format c))); [discriminate|]. cbn in HI. injection HI as <-. reflexivity.
Qed.

(** C32: the sources evaluated are the track and the cascades, each with its
    base, and these are the ones parameters are computed for. *)
Theorem C32_sources format c row named : indexer (track_names format c) row = Ok named ->
  exists d, track_split c named row = Ok d /\
    (forall n, dget n (track_sources c) = Some "track"%string <-> n = "track"%string) /\
    (forall n, dget n (track_sources c) = Some "cascade"%string <-> exists i, (i < num_cascades c)%nat /\ n = cascade_name i) /\
    NoDup (dkeys (track_sources c)) /\
    (forall n, dget n d <> None <-> In n (dkeys (track_sources c))) /\
    forall n b, In (n, b) (track_sources c) -> b = "track"%string \/ b = "cascade"%string.
Proof.
  intros HI. destruct (track_split_total _ _ _ _ HI) as (d & E). exists d. split; [exact E|].
  assert (HC : forall n, In n (map cascade_name (seq 0 (num_cascades c))) <-> exists i, (i < num_cascades c)%nat /\ n = cascade_name i).
  { intros n. rewrite in_map_iff. split.
    - intros (i & <- & Hi). apply in_seq in Hi. exists i. split; [lia|reflexivity].
    - intros (i & Hi & ->). exists i. split; [reflexivity|]. apply in_seq. lia. }
  assert (HK : dkeys (track_sources c) = "track"%string :: map cascade_name (seq 0 (num_cascades c))).
  { rewrite track_sources_eq. cbn. f_equal. unfold dkeys. rewrite map_map. reflexivity. }
  assert (HN : NoDup (dkeys (track_sources c))).
  { rewrite HK. constructor; [|apply nodup_map; [apply cascade_name_inj|apply seq_NoDup]]. intros H. apply HC in H. destruct H as (i & _ & H).
    symmetry in H. exact (cascade_name_track _ H). }
  assert (HG : forall n b, dget n (track_sources c) = Some b <-> In (n, b) (track_sources c)) by (intros n b; split; [apply dget_In|apply In_dget; exact HN]).
  assert (HB : forall n b, In (n, b) (track_sources c) <-> (n = "track" /\ b = "track")%string \/ (b = "cascade"%string /\ exists i, (i < num_cascades c)%nat /\ n = cascade_name i)).
  { intros n b. rewrite track_sources_eq. cbn [In]. rewrite in_map_iff. split.
    - intros [H|(i & H & Hi)]; [injection H as <- <-; auto|]. injection H as <- <-. apply in_seq in Hi. right. split; [reflexivity|]. exists i. split; [lia|reflexivity].
    - intros [[-> ->]|(-> & i & Hi & ->)]; [auto|]. right. exists i. split; [reflexivity|]. apply in_seq. lia. }
  split; [|split; [|split; [exact HN|split]]].
  - intros n. rewrite HG, HB. split; [intros [[? _]|[? _]]; [assumption|discriminate]|auto].
  - intros n. rewrite HG, HB. split; [intros [[_ ?]|[_ ?]]; [discriminate|assumption]|auto].
  - intros n. rewrite HK. rewrite (track_split_keys _ _ _ _ E n). cbn [In]. rewrite HC. split; intros [H|H]; auto.
  - intros n b H. apply HB in H. destruct H as [[_ ->]|[-> _]]; auto.
Qed.

(** C32: with systematics parameters the widths match. *)
Theorem C32_usable format c row named i : indexer (track_names format c) row = Ok named -> (0 < num_snowstorm c)%nat -> (i < num_cascades c)%nat ->
  exists d tr ca, track_split c named row = Ok d /\ dget "track" d = Some tr /\ length tr = (9 + num_snowstorm c)%nat /\
    dget (cascade_name i) d = Some ca /\ length ca = (7 + num_snowstorm c)%nat.
Proof.
  intros HI Hk Hi. destruct (C32_appended _ _ _ _ HI) as (d & pre & tail & E & ER & EL & (own & Ed & Hown) & HC). destruct (HC i Hi) as (own' & Ec & Hown').
  destruct (Nat.eqb_spec (num_snowstorm c) 0); [lia|]. exists d. do 2 eexists. split; [exact E|]. split; [exact Ed|]. split; [rewrite app_length; lia|].
  split; [exact Ec|]. rewrite app_length. lia.
Qed.

Definition two_cascades : track_config := {| num_cascades := 2; snowstorm := [] |}.
Example C32_case : exists named, indexer (track_names (fun s _ => s) two_cascades) [1;2;3;4;5;6;7;8;9;10;11;12;13] = Ok named.
Proof. eexists. vm_compute. reflexivity. Qed.
Definition nine : source := {| s_names := ["1"; "2"; "3"; "4"; "5"; "6"; "7"; "8"; "9"]%string; s_eval := fun _ => Err KeyError |}.
Example C32_unusable_case : num_snowstorm two_cascades = 0%nat /\ dget "track" [("cascade", lamp 1); ("track", nine)]%string = Some nine /\
  length (s_names nine) = 9%nat /\ forall b, In b ["track"; "cascade"]%string -> dget b [("cascade", lamp 1); ("track", nine)]%string <> None.
Proof. repeat (split; [reflexivity|]). intros b [<-|[<-|[]]]; discriminate. Qed.
Example C32_usable_case : exists named, indexer (track_names (fun s _ => s) {| num_cascades := 1; snowstorm := [("a", 1%nat); ("b", 1%nat)]%string |}) [1;2;3;4;5;6;7;8;9;10;11;12;13] = Ok named.
Proof. eexists. vm_compute. reflexivity. Qed.

(** ** C33: geometry *)

(** C33: flying a distance takes the time light needs, the distance is the one
    between the points. *)
Theorem C33_speed p t q t' zenith azimuth s : Flight p t q t' zenith azimuth s ->
  sqrt (norm2 (minus q p)) = Rabs s /\ Rabs s = 299792458 / 1000000000 * Rabs (t' - t).
Proof.
  intros H. split.
  - rewrite (flight_distance _ _ _ _ _ _ _ H). apply sqrt_Rsqr_abs.
  - destruct H as [_ <-]. rewrite Rabs_mult, Rmult_comm. f_equal. apply Rabs_right. lra.
Qed.

(** C33: track. *)
Theorem C33_track format c row named : indexer (track_names format c) row = Ok named ->
  exists d x y z zenith azimuth t ds de, track_split c named row = Ok d /\
    dget "track_anchor_x" named = Some x /\ dget "track_anchor_y" named = Some y /\ dget "track_anchor_z" named = Some z /\
    dget "zenith" named = Some zenith /\ dget "azimuth" named = Some azimuth /\ dget "track_anchor_time" named = Some t /\
    dget "track_distance_start" named = Some ds /\ dget "track_distance_end" named = Some de /\
    (exists px py pz e pt l st r, dget "track" d = Some (px :: py :: pz :: zenith :: azimuth :: e :: pt :: l :: st :: r) /\
       Flight (x, y, z) t (px, py, pz) pt zenith azimuth ds /\
       forall q t', Flight (px, py, pz) pt q t' zenith azimuth l -> Flight (x, y, z) t q t' zenith azimuth de) /\
    ((0 < num_cascades c)%nat -> exists e r, dget (cascade_name 0) d = Some (x :: y :: z :: zenith :: azimuth :: e :: t :: r) /\
       dget (cascade_name 0 ++ "_energy")%string named = Some e) /\
    forall i, (0 < i < num_cascades c)%nat -> exists px py pz e pt r dist,
       dget (cascade_name i) d = Some (px :: py :: pz :: zenith :: azimuth :: e :: pt :: r) /\
       dget (cascade_name i ++ "_energy")%string named = Some e /\ dget (cascade_name i ++ "_distance")%string named = Some dist /\
       Flight (x, y, z) t (px, py, pz) pt zenith azimuth dist.
Proof.
  intros HI. destruct (track_split_total _ _ _ _ HI) as (d & E). exists d.
  destruct (track_split_ok _ _ _ _ E) as (x & y & z & ze & az & t & ds & de & en & st & px & py & pz & pt & E1 & E2 & E3 & E4 & E5 & E6 & E7 & E8 & E9 & E10 & EA & ET & EC0 & EC).
  exists x, y, z, ze, az, t, ds, de. repeat (split; [assumption|]). split; [|split].
  - do 8 eexists. split; [exact ET|]. apply along_flight in EA. split; [exact EA|]. intros q t' HF. replace de with (ds + (de - ds)) by lra. eapply flight_trans; eassumption.
  - intros Hn. destruct (EC0 ltac:(lia)) as (e0 & He & Hc). exists e0. eexists. split; [exact Hc|exact He].
  - intros i Hi. destruct (EC i ltac:(lia)) as (dist & e & qx & qy & qz & qt & Hd & He & HA & Hc). apply along_flight in HA.
    exists qx, qy, qz, e, qt. eexists. exists dist. split; [exact Hc|]. auto.
Qed.

(** C33: muon. *)
Theorem C33_muon n row named : indexer (muon_names n) row = Ok named ->
  exists d x y z zenith azimuth t p pt s0, muon_split n named row = Ok d /\
    dget "x" named = Some x /\ dget "y" named = Some y /\ dget "z" named = Some z /\ dget "zenith" named = Some zenith /\ dget "azimuth" named = Some azimuth /\
    dget "time" named = Some t /\ Flight (x, y, z) t p pt zenith azimuth s0 /\ dot p (origin zenith azimuth) = 0 /\
    (forall q t' s, Flight (x, y, z) t q t' zenith azimuth s -> norm2 p <= norm2 q) /\
    forall i, (i < n)%nat -> exists cx cy cz e ct le, dget (cascade_name i) d = Some [cx; cy; cz; zenith; azimuth; e; ct] /\
      dget (cascade_name i ++ "_log_energy")%string named = Some le /\
      Flight p pt (cx, cy, cz) ct zenith azimuth (if Nat.eqb n 1 then - 500 else - 500 + 1000 * (INR i / INR (n - 1))) /\
      ((Rabs cx <= 700 /\ Rabs cy <= 700 /\ Rabs cz <= 700) -> e = exp le) /\
      ((700 < Rabs cx \/ 700 < Rabs cy \/ 700 < Rabs cz) -> e = 0).
Proof.
  intros HI. assert (HB : forall k, In k (muon_names n) -> exists v, dget k named = Some v) by (intros k; eapply indexer_some; exact HI).
  destruct (HB "x"%string ltac:(cbn; tauto)) as (x & E1). destruct (HB "y"%string ltac:(cbn; tauto)) as (y & E2). destruct (HB "z"%string ltac:(cbn; tauto)) as (z & E3).
  destruct (HB "zenith"%string ltac:(cbn; tauto)) as (zenith & E4). destruct (HB "azimuth"%string ltac:(cbn; tauto)) as (azimuth & E5).
  destruct (HB "time"%string ltac:(cbn; tauto)) as (t & E6).
  assert (HK : length (dkeys (muon_sources n)) = length (distances n)) by (rewrite muon_keys, map_length, seq_length, distances_length; reflexivity).
  assert (EN : forall i, (i < n)%nat -> nth_error (combine (dkeys (muon_sources n)) (distances n)) i =
            Some (cascade_name i, if Nat.eqb n 1 then - 500 else - 500 + 1000 * (INR i / INR (n - 1)))).
  { intros i Hi. apply combine_nth_error.
    - rewrite muon_keys. apply map_nth_error. rewrite nth_error_nth' with (d := 0%nat) by (rewrite seq_length; lia). rewrite seq_nth by lia. reflexivity.
    - destruct n as [|[|n]]; [lia|assert (i = 0%nat) as -> by lia; reflexivity|]. cbn [distances Nat.eqb]. unfold linspace.
      rewrite nth_error_nth' with (d := 0) by (rewrite map_length, seq_length; lia). f_equal.
      rewrite (nth_indep _ 0 ((fun i => - (500) + INR i * (2 * 500 / INR (S (S n) - 1))) 0%nat)) by (rewrite map_length, seq_length; lia).
      rewrite (map_nth (fun i => - (500) + INR i * (2 * 500 / INR (S (S n) - 1)))). rewrite seq_nth by lia. cbn [Nat.add]. unfold Rdiv. ring. }
  destruct (muon_cascades_total named x y z t zenith azimuth (combine (dkeys (muon_sources n)) (distances n))) with (d := @nil (string * list R)) as (d & Ed).
  { intros [nm ds] Hp. apply in_combine_l in Hp. rewrite muon_keys in Hp. cbn [fst]. apply HB. unfold muon_names. apply in_or_app. right.
    apply in_map_iff in Hp. destruct Hp as (i & <- & Hi). apply in_map_iff. exists i. auto. }
  destruct (closest x y z t zenith azimuth) as [[[px py] pz] pt] eqn:EC.
  set (s0 := - dot (- x, - y, - z) (origin zenith azimuth)).
  pose proof (origin_unit zenith azimuth) as HU.
  assert (HP : Flight (x, y, z) t (px, py, pz) pt zenith azimuth s0).
  { unfold closest, direction in EC. injection EC as <- <- <- <-. unfold Flight, minus, scale, origin, s0, dot, c_light. split; [unfold origin; f_equal; [f_equal|]; ring|]. unfold origin. field. }
  exists d, x, y, z, zenith, azimuth, t, (px, py, pz), pt, s0. split.
  { unfold muon_split, lookup. rewrite E1. cbn [bind]. rewrite E2. cbn [bind]. rewrite E3. cbn [bind]. rewrite E4. cbn [bind]. rewrite E5. cbn [bind]. rewrite E6. cbn [bind]. exact Ed. }
  repeat (split; [assumption|]).
  assert (HD : dot (px, py, pz) (origin zenith azimuth) = 0).
  { destruct HP as [HP _]. unfold s0 in HP. unfold norm2 in HU. revert HP HU. destruct (origin zenith azimuth) as [[o1 o2] o3]. unfold minus, scale, dot. intros HP HU.
    injection HP as P1 P2 P3. set (w := - (- x * o1 + - y * o2 + - z * o3)) in *. replace px with (x - w * o1) by lra. replace py with (y - w * o2) by lra.
    replace pz with (z - w * o3) by lra. replace ((x - w * o1) * o1 + (y - w * o2) * o2 + (z - w * o3) * o3) with (x * o1 + y * o2 + z * o3 - w * (o1 * o1 + o2 * o2 + o3 * o3)) by ring.
    rewrite HU. unfold w. ring. }
  split; [exact HD|]. split.
  { intros q t' s HF. destruct HP as [HP _]. destruct HF as [HF _]. unfold norm2 in *. revert HP HF HD HU. generalize s0. destruct q as [[q1 q2] q3].
    destruct (origin zenith azimuth) as [[o1 o2] o3]. unfold minus, scale, dot. intros w HP HF HD HU. injection HP as P1 P2 P3. injection HF as F1 F2 F3.
    replace q1 with (px + (w - s) * o1) by lra. replace q2 with (py + (w - s) * o2) by lra. replace q3 with (pz + (w - s) * o3) by lra. set (k := w - s).
    replace ((px + k * o1) * (px + k * o1) + (py + k * o2) * (py + k * o2) + (pz + k * o3) * (pz + k * o3))
      with (px * px + py * py + pz * pz + 2 * k * (px * o1 + py * o2 + pz * o3) + k * k * (o1 * o1 + o2 * o2 + o3 * o3)) by ring.
    rewrite HD, HU. nra. }
  intros i Hi. apply muon_cascades_ok in Ed.
  2:{ rewrite map_fst_combine by (symmetry; exact HK). rewrite muon_keys. apply nodup_map; [apply cascade_name_inj|apply seq_NoDup]. }
  destruct Ed as [_ HM]. destruct (HM i _ _ (EN i Hi)) as (le & EL & Hd). set (dist := if Nat.eqb n 1 then _ else _) in *.
  unfold muon_cascade in Hd. rewrite EC in Hd. unfold direction in Hd. cbv zeta in Hd. do 6 eexists. split; [exact Hd|]. split; [exact EL|]. clearbody dist.
  split; [unfold Flight, minus, scale, origin, c_light; split; [f_equal; [f_equal|]; ring|field]|].
  set (cx := px + _). set (cy := py + _). set (cz := pz + _). unfold Rltb. split.
  - intros (H1 & H2 & H3). destruct (Rlt_dec 700 (Rabs cx)); [lra|]. destruct (Rlt_dec 700 (Rabs cy)); [lra|]. destruct (Rlt_dec 700 (Rabs cz)); [lra|]. reflexivity.
  - intros H. destruct (Rlt_dec 700 (Rabs cx)), (Rlt_dec 700 (Rabs cy)), (Rlt_dec 700 (Rabs cz)); try ring; lra.
Qed.

Example C33_case : exists named, indexer (muon_names 2) [10; 20; 30; 1; 2; 100; 3; 4] = Ok named.
Proof. eexists. vm_compute. reflexivity. Qed.

(** C33: the vertex is shifted forward, further for higher energies, not at all
    for small ones. *)
Theorem C33_shift x y z zenith azimuth energy t x' y' z' t' : shift_to_maximum x y z zenith azimuth energy t = (x', y', z', t') ->
  exists l, 0 <= l /\ Flight (x, y, z) t (x', y', z') t' zenith azimuth l /\ l = Rmax 0 (63207 / 100000 * (101849 / 100000 + 63176 / 100000 * ln (energy + 1 / 1000000))).
Proof.
  unfold shift_to_maximum, direction. intros H. exists (length_to_maximum energy). injection H as <- <- <- <-. split; [apply Rmax_l|]. split.
  - unfold Flight, minus, scale, origin, c_light. split; [f_equal; [f_equal|]; ring|field].
  - unfold length_to_maximum. f_equal. field.
Qed.

Theorem C33_shift_energy e1 e2 : 0 <= e1 -> e1 <= e2 -> length_to_maximum e1 <= length_to_maximum e2.
Proof.
  intros H1 H2. unfold length_to_maximum. apply Rle_max_compat_l.
  assert (HL : ln (e1 + 1 / 1000000) <= ln (e2 + 1 / 1000000)).
  { destruct (Req_dec e1 e2) as [->|Hn]; [lra|]. left. apply ln_increasing; lra. }
  revert HL. generalize (ln (e1 + 1 / 1000000)) (ln (e2 + 1 / 1000000)). intros u v HL.
  replace ((201849 / 100000 + 63176 / 100000 * u - 1) / (358 / 1000 / (9216 / 10000) / (63207 / 100000)) * (358 / 1000 / (9216 / 10000))) with (63207 / 100000 * (101849 / 100000 + 63176 / 100000 * u)) by field.
  replace ((201849 / 100000 + 63176 / 100000 * v - 1) / (358 / 1000 / (9216 / 10000) / (63207 / 100000)) * (358 / 1000 / (9216 / 10000))) with (63207 / 100000 * (101849 / 100000 + 63176 / 100000 * v)) by field.
  lra.
Qed.

Theorem C33_shift_positive e : 1 <= e -> 0 < length_to_maximum e.
Proof.
  intros H. unfold length_to_maximum. assert (HL : 0 < ln (e + 1 / 1000000)) by (rewrite <- ln_1; apply ln_increasing; lra).
  eapply Rlt_le_trans; [|apply Rmax_r]. revert HL. generalize (ln (e + 1 / 1000000)). intros u HL.
  replace ((201849 / 100000 + 63176 / 100000 * u - 1) / (358 / 1000 / (9216 / 10000) / (63207 / 100000)) * (358 / 1000 / (9216 / 10000))) with (63207 / 100000 * (101849 / 100000 + 63176 / 100000 * u)) by field.
  lra.
Qed.

Theorem C33_shift_zero : length_to_maximum 0 = 0.
Proof.
  unfold length_to_maximum. apply Rmax_left.
  assert (HL : ln (0 + 1 / 1000000) < -2).
  { rewrite <- (ln_exp (-2)). apply ln_increasing; [lra|]. pose proof (exp_pos 1) as Hp.
    assert (He : exp 1 <= 3) by apply exp_le_3. replace (-2) with (- (1 + 1)) by lra. rewrite exp_Ropp, exp_plus.
    apply Rlt_le_trans with (/ 9); [lra|]. apply Rinv_le_contravar; [nra|nra]. }
  revert HL. generalize (ln (0 + 1 / 1000000)). intros u HL.
  replace ((201849 / 100000 + 63176 / 100000 * u - 1) / (358 / 1000 / (9216 / 10000) / (63207 / 100000)) * (358 / 1000 / (9216 / 10000))) with (63207 / 100000 * (101849 / 100000 + 63176 / 100000 * u)) by field.
  lra.
Qed.

Print Assumptions C30_sum.
Print Assumptions C30_density.
Print Assumptions C30_exclusion.
Print Assumptions C30_order.
Print Assumptions C30_single.
Print Assumptions C30_no_sources.
Print Assumptions C67_own.
Print Assumptions C67_late.
Print Assumptions C67_one_base.
Print Assumptions C67_refuted.
Print Assumptions C31_partition.
Print Assumptions C31_names.
Print Assumptions C31_refuted.
Print Assumptions C32_appended.
Print Assumptions C32_unusable.
Print Assumptions C32_usable.
Print Assumptions C33_speed.
Print Assumptions C33_track.
Print Assumptions C33_muon.
Print Assumptions C33_shift.
Print Assumptions C33_shift_energy.
Print Assumptions C33_shift_positive.
Print Assumptions C33_shift_zero.
Print Assumptions C30_missing_base.
Print Assumptions C67_success.
Print Assumptions C32_sources.
