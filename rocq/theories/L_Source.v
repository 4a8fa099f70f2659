(** Lemmas for combined sources. *)
From Coq Require Import Reals Lra Permutation.
From Verif Require Import Py PyFacts PyStr PyStrFacts RList M_Train L_Train M_Source S_Source.
Open Scope R_scope.

(** ** Named parameters *)

Lemma bind_ok {A B} (r : result A) (f : A -> result B) y : bind r f = Ok y -> exists x, r = Ok x /\ f x = Ok y.
Proof. destruct r as [x|]; [|discriminate]. cbn. eauto. Qed.

Lemma lookup_ok {A} k (d : dict A) v : lookup k d = Ok v <-> dget k d = Some v.
Proof. unfold lookup. destruct (dget k d); split; congruence. Qed.

Lemma fold_dset_other {A} l : forall (d : dict A) k, ~ In k (map fst l) -> dget k (fold_left (fun d nv => dset (fst nv) (snd nv) d) l d) = dget k d.
Proof.
  induction l as [|[n v] l IH]; intros d k Hk; [reflexivity|]. cbn [fold_left fst snd map] in *. rewrite IH by (intros H; apply Hk; right; exact H).
  apply dget_dset_other. intros ->. apply Hk. left. reflexivity.
Qed.

Lemma fold_dset_some {A} l : forall (d : dict A) k, In k (map fst l) \/ dget k d <> None -> exists v, dget k (fold_left (fun d nv => dset (fst nv) (snd nv) d) l d) = Some v.
Proof.
  induction l as [|[n v] l IH]; intros d k Hk; cbn [fold_left fst snd map] in *; [destruct Hk as [[]|Hk]; destruct (dget k d) eqn:E; [eauto|congruence]|].
  apply IH. destruct (string_dec k n) as [->|Hn]; [right; rewrite dget_dset_same; discriminate|]. rewrite dget_dset_other by exact Hn.
  destruct Hk as [[Hk|Hk]|Hk]; [congruence|left; exact Hk|right; exact Hk].
Qed.

Lemma fold_dset_nth {A} l : forall (d : dict A) p k v, NoDup (map fst l) -> nth_error l p = Some (k, v) ->
  dget k (fold_left (fun d nv => dset (fst nv) (snd nv) d) l d) = Some v.
Proof.
  induction l as [|[n w] l IH]; intros d p k v HN Hp; [destruct p; discriminate|]. cbn [fold_left fst snd map] in *. inversion HN; subst.
  destruct p as [|p]; cbn in Hp; [|eapply IH; eassumption]. injection Hp as -> ->. rewrite fold_dset_other by assumption. apply dget_dset_same.
Qed.

Lemma map_fst_combine {A B} (a : list A) (b : list B) : length b = length a -> map fst (combine a b) = a.
Proof. revert b. induction a as [|x a IH]; intros [|y b] H; try discriminate; [reflexivity|]. cbn in *. f_equal. apply IH. lia. Qed.

Lemma indexer_some names row named k : indexer names row = Ok named -> In k names -> exists v, dget k named = Some v.
Proof.
  unfold indexer. destruct (Nat.eqb_spec (length row) (length names)) as [E|]; [|discriminate]. cbn [negb]. intros H Hk. injection H as <-.
  apply fold_dset_some. left. rewrite map_fst_combine by exact E. exact Hk.
Qed.

Lemma indexer_nth names row named p k : indexer names row = Ok named -> NoDup names -> nth_error names p = Some k ->
  dget k named = nth_error row p.
Proof.
  unfold indexer. destruct (Nat.eqb_spec (length row) (length names)) as [E|]; [|discriminate]. cbn [negb]. intros H HN Hp. injection H as <-.
  destruct (nth_error row p) as [v|] eqn:Ev.
  - eapply fold_dset_nth; [rewrite map_fst_combine by exact E; exact HN|]. apply combine_nth_error; eassumption.
  - apply nth_error_None in Ev. assert (p < length names)%nat by (apply nth_error_Some; congruence). lia.
Qed.

Lemma indexer_width names row : (exists named, indexer names row = Ok named) <-> length row = length names.
Proof. unfold indexer. destruct (Nat.eqb_spec (length row) (length names)) as [E|E]; cbn; split; intros H; try congruence; [eauto|destruct H; discriminate]. Qed.

Lemma first_missing_false subs order : first_missing subs order = false <-> forall b, In b order -> dget b subs <> None.
Proof.
  induction order as [|b order IH]; cbn [first_missing In]; [split; [intros _ b []|reflexivity]|]. rewrite orb_false_iff, IH. unfold dmem. split.
  - intros [H1 H2] x [<-|Hx]; [|apply H2; exact Hx]. destruct (dget b subs); [discriminate|]. discriminate.
  - intros H. split; [|intros x Hx; apply H; right; exact Hx]. specialize (H b (or_introl eq_refl)). destruct (dget b subs); [reflexivity|congruence].
Qed.

Lemma Forall2_in_l {A B} (P : A -> B -> Prop) l l' x : Forall2 P l l' -> In x l -> exists y, In y l' /\ P x y.
Proof. induction 1 as [|a b l l' HP HF IH]; [intros []|]. intros [<-|Hx]; [exists b; split; [left; reflexivity|exact HP]|]. destruct (IH Hx) as (y & Hy & Hp). exists y. split; [right; exact Hy|exact Hp]. Qed.

(** ** The loop over the sources *)
Section Loop.
Variables (late : bool) (order : list string) (subs : dict source) (ids : list cell) (params : dict (list R)).

(** One source is evaluated. *)
Definition Eval (nb : string * string) (r : tensors) : Prop :=
  exists sub row e, dget (snd nb) subs = Some sub /\ dget (fst nb) params = Some row /\ length row = length (s_names sub) /\
    evaluator late order subs (snd nb) = Ok e /\ s_eval e row = Ok r.

Lemma loop_ok sources : forall a a', loop_sources late order subs ids params sources a = Ok a' <->
  exists rs, Forall2 Eval sources rs /\ a' = fold_left (accumulate ids) rs a.
Proof.
  induction sources as [|[name base] sources IH]; intros a a'; cbn [loop_sources].
  - split; [intros H; injection H as <-; exists []; split; [constructor|reflexivity]|].
    intros (rs & HF & ->). inversion HF; subst. reflexivity.
  - split.
    + intros H. apply bind_ok in H. destruct H as (sub & E1 & H). apply bind_ok in H. destruct H as (row & E2 & H).
      apply bind_ok in H. destruct H as (named & E3 & H). apply bind_ok in H. destruct H as (e & E4 & H). apply bind_ok in H. destruct H as (r & E5 & H).
      apply IH in H. destruct H as (rs & HF & ->). exists (r :: rs). split; [|reflexivity]. constructor; [|exact HF].
      apply lookup_ok in E1. apply lookup_ok in E2. exists sub, row, e. cbn [fst snd]. repeat (split; [assumption|]).
      split; [apply indexer_width; eauto|]. auto.
    + intros (rs & HF & ->). inversion HF as [|? r ? rs' HE HF']; subst. destruct HE as (sub & row & e & E1 & E2 & E3 & E4 & E5). cbn [fst snd] in *.
      apply lookup_ok in E1. apply lookup_ok in E2. rewrite E1. cbn [bind]. rewrite E2. cbn [bind].
      apply indexer_width in E3. destruct E3 as (named & ->). cbn [bind]. rewrite E4. cbn [bind]. rewrite E5. cbn [bind]. apply IH. exists rs'. auto.
Qed.

(** Values of the accumulation. *)
Lemma accumulate_values rs : forall a, exists a', fold_left (accumulate ids) rs (Some a) = Some a' /\
  (forall c, t_charges a' c = t_charges a c + total rs c) /\
  (forall c, t_var a' c = t_var a c + Rsum (map (fun r => t_var r c) rs)) /\
  (forall c, t_excl a' c = t_excl a c + Rsum (map (fun r => t_excl r c * t_charges r c) rs)) /\
  (length (t_pdf a) = length ids -> Forall (Shaped ids) rs -> length (t_pdf a') = length ids /\
   forall j c, nth_error ids j = Some c -> nth j (t_pdf a') 0 = nth j (t_pdf a) 0 + Rsum (map (fun r => density r j * t_charges r c) rs)).
Proof.
  induction rs as [|r rs IH]; intros a.
  - exists a. unfold total. cbn. repeat (split; [reflexivity || (intros c; lra)|]). intros HL _. split; [exact HL|]. intros j c _. lra.
  - cbn [fold_left]. set (a1 := match accumulate ids (Some a) r with Some x => x | None => a end).
    change (accumulate ids (Some a) r) with (Some a1). destruct (IH a1) as (a' & HE & H1 & H2 & H3 & H4). exists a'. split; [exact HE|].
    unfold total in *. cbn [map]. split; [intros c; rewrite H1, Rsum_cons; cbn; lra|]. split; [intros c; rewrite H2, Rsum_cons; cbn; lra|].
    split; [intros c; rewrite H3, Rsum_cons; cbn; lra|]. intros HL HF. inversion HF as [|? ? Hr HF']; subst. unfold Shaped in Hr.
    assert (HL1 : length (t_pdf a1) = length ids).
    { cbn. unfold gather. rewrite !zipw_length, map_length. lia. }
    destruct (H4 HL1 HF') as [HL' HN]. split; [exact HL'|]. intros j c Hj. rewrite (HN j c Hj), Rsum_cons.
    assert (Hjl : (j < length ids)%nat) by (apply nth_error_Some; congruence).
    assert (E : nth j (t_pdf a1) 0 = nth j (t_pdf a) 0 + density r j * t_charges r c); [|rewrite E; lra].
    cbn. unfold density, gather. rewrite (nth_zipw Rplus _ _ j 0 0 0) by (rewrite ?zipw_length, ?map_length; lia). f_equal.
    rewrite (nth_zipw Rmult _ _ j 0 0 0) by (rewrite ?map_length; lia). f_equal.
    rewrite (nth_indep _ 0 (t_charges r c)) by (rewrite map_length; lia). rewrite (map_nth (t_charges r)). f_equal. apply nth_error_nth. exact Hj.
Qed.

Lemma accumulate_all r rs : exists a', fold_left (accumulate ids) (r :: rs) None = Some a' /\
  (forall c, t_charges a' c = total (r :: rs) c) /\
  (forall c, t_var a' c = Rsum (map (fun r => t_var r c) (r :: rs))) /\
  (forall c, t_excl a' c = Rsum (map (fun r => t_excl r c * t_charges r c) (r :: rs))) /\
  (Forall (Shaped ids) (r :: rs) -> length (t_pdf a') = length ids /\
   forall j c, nth_error ids j = Some c -> nth j (t_pdf a') 0 = Rsum (map (fun r => density r j * t_charges r c) (r :: rs))).
Proof.
  cbn [fold_left]. set (a := match accumulate ids None r with Some x => x | None => r end). change (accumulate ids None r) with (Some a).
  destruct (accumulate_values rs a) as (a' & HE & H1 & H2 & H3 & H4). exists a'. split; [exact HE|]. unfold total in *. cbn [map].
  split; [intros c; rewrite H1, Rsum_cons; cbn; lra|]. split; [intros c; rewrite H2, Rsum_cons; cbn; lra|].
  split; [intros c; rewrite H3, Rsum_cons; cbn; lra|]. intros HF. inversion HF as [|? ? Hr HF']; subst. unfold Shaped in Hr.
  assert (HL1 : length (t_pdf a) = length ids) by (cbn; unfold gather; rewrite zipw_length, map_length; lia).
  destruct (H4 HL1 HF') as [HL' HN]. split; [exact HL'|]. intros j c Hj. rewrite (HN j c Hj), Rsum_cons. f_equal.
  assert (Hjl : (j < length ids)%nat) by (apply nth_error_Some; congruence).
  cbn. unfold density, gather. rewrite (nth_zipw Rmult _ _ j 0 0 0) by (rewrite ?map_length; lia). f_equal.
  rewrite (nth_indep _ 0 (t_charges r c)) by (rewrite map_length; lia). rewrite (map_nth (t_charges r)). f_equal. apply nth_error_nth. exact Hj.
Qed.

Lemma finish_combination rs c : rs <> [] -> finish ids (fold_left (accumulate ids) rs None) = Ok c -> Combination ids rs c.
Proof.
  intros Hr H. destruct rs as [|r rs]; [congruence|]. destruct (accumulate_all r rs) as (a & E & H1 & H2 & H3 & H4). rewrite E in H. cbn [finish] in H.
  injection H as <-. unfold Combination. cbn [c_charges c_var c_excl c_pdf]. split; [exact H1|]. split; [exact H2|]. split; [|split].
  - intros x Hx. rewrite H1, Hx. destruct (Reqb 0 0) eqn:E0; [reflexivity|]. apply Reqb_false in E0. congruence.
  - intros x Hx. rewrite H1, H3. destruct (Reqb (total (r :: rs) x) 0) eqn:E0; [apply Reqb_true in E0; congruence|reflexivity].
  - intros HF. destruct (H4 HF) as [HL HN]. split; [unfold gather; rewrite zipw_length, map_length; lia|]. intros j x Hj.
    assert (Hjl : (j < length ids)%nat) by (apply nth_error_Some; congruence).
    rewrite (nth_zipw _ _ _ j 0 0 0) by (unfold gather; rewrite ?map_length; lia). rewrite (HN j x Hj). f_equal. f_equal. unfold gather.
    rewrite (nth_indep _ 0 (t_charges a x)) by (rewrite map_length; lia). rewrite (map_nth (t_charges a)).
    rewrite (nth_error_nth _ _ _ Hj). apply H1.
Qed.

Lemma finish_ok rs : rs <> [] -> exists c, finish ids (fold_left (accumulate ids) rs None) = Ok c.
Proof. intros Hr. destruct rs as [|r rs]; [congruence|]. destruct (accumulate_all r rs) as (a & E & _). rewrite E. cbn. eauto. Qed.

Lemma eval_perm s s' : Permutation s s' -> forall rs, Forall2 Eval s rs -> exists rs', Forall2 Eval s' rs' /\ Permutation rs rs'.
Proof.
  induction 1 as [|x s s' HP IH|x y s|s s1 s2 HP1 IH1 HP2 IH2]; intros rs HF.
  - inversion HF; subst. exists []. split; constructor.
  - inversion HF as [|? r ? rs1 E HF1]; subst. destruct (IH _ HF1) as (rs' & HF' & HP'). exists (r :: rs'). split; constructor; assumption.
  - inversion HF as [|? r ? rs1 E HF1]; subst. inversion HF1 as [|? r2 ? rs2 E2 HF2]; subst. exists (r2 :: r :: rs2). split; [repeat (constructor; [assumption|]); assumption|constructor].
  - destruct (IH1 _ HF) as (r1 & HF1 & HP1'). destruct (IH2 _ HF1) as (r2 & HF2 & HP2'). exists r2. split; [exact HF2|]. eapply Permutation_trans; eassumption.
Qed.

Lemma combination_perm rs rs' c c' : Permutation rs rs' -> Forall (Shaped ids) rs -> Combination ids rs c -> Combination ids rs' c' -> Same c c'.
Proof.
  intros HP HF (A1 & A2 & A3 & A4 & A5) (B1 & B2 & B3 & B4 & B5).
  assert (HT : forall x, total rs x = total rs' x) by (intros x; apply Rsum_perm, Permutation_map; exact HP).
  assert (HS : forall f : tensors -> R, Rsum (map f rs) = Rsum (map f rs')) by (intros f; apply Rsum_perm, Permutation_map; exact HP).
  split; [intros x; rewrite A1, B1; apply HT|]. split; [intros x; rewrite A2, B2; apply HS|]. split.
  - intros x. destruct (Req_dec (total rs x) 0) as [E|E].
    + rewrite A3 by exact E. rewrite B3 by (rewrite <- HT; exact E). reflexivity.
    + rewrite A4 by exact E. rewrite B4 by (rewrite <- HT; exact E). rewrite HT, (HS (fun r => t_excl r x * t_charges r x)). reflexivity.
  - assert (HF' : Forall (Shaped ids) rs') by (rewrite Forall_forall in *; intros r Hr; apply HF; eapply Permutation_in; [apply Permutation_sym; exact HP|exact Hr]).
    destruct (A5 HF) as [LA NA]. destruct (B5 HF') as [LB NB]. apply nth_ext with (d := 0) (d' := 0); [lia|]. intros j Hj.
    destruct (nth_error ids j) as [x|] eqn:E; [|apply nth_error_None in E; lia]. rewrite (NA j x E), (NB j x E), HT.
    rewrite (HS (fun r => density r j * t_charges r x)). reflexivity.
Qed.
End Loop.

(** ** Independent sources *)
Section Independent.
Variables (subs : dict source) (sources : dict string) (row : list R).

Definition names_of (c : string) : list string :=
  match dget c sources with
  | Some b => match dget b subs with Some s => s_names s | None => [] end
  | None => []
  end.

Lemma names_ok sorted names : independent_names subs sources sorted = Ok names ->
  names = flat_map (fun c => map (fun v => (c ++ "_" ++ v)%string) (names_of c)) sorted /\
  forall c, In c sorted -> exists b s, dget c sources = Some b /\ dget b subs = Some s.
Proof.
  revert names. induction sorted as [|c rest IH]; intros names H; cbn [independent_names] in H; [injection H as <-; split; [reflexivity|intros c []]|].
  apply bind_ok in H. destruct H as (b & E1 & H). apply bind_ok in H. destruct H as (s & E2 & H). apply bind_ok in H. destruct H as (l & E3 & H).
  injection H as <-. destruct (IH _ E3) as [-> HX]. apply lookup_ok in E1. apply lookup_ok in E2. split.
  - cbn [flat_map]. unfold names_of at 2. rewrite E1, E2. reflexivity.
  - intros x [<-|Hx]; [eauto|auto].
Qed.

Definition size (l : list string) : nat := fold_right (fun c n => (length (names_of c) + n)%nat) 0%nat l.

Lemma blocks_ok sorted : NoDup sorted -> (forall c, In c sorted -> exists b s, dget c sources = Some b /\ dget b subs = Some s) ->
  forall counter d0, exists d, independent_blocks subs sources row counter sorted d0 = Ok d /\
    (forall c, ~ In c sorted -> dget c d = dget c d0) /\
    forall l1 c l2, sorted = l1 ++ c :: l2 -> dget c d = Some (firstn (length (names_of c)) (skipn (counter + size l1) row)).
Proof.
  intros HN HX. induction sorted as [|c rest IH]; intros counter d0; cbn [independent_blocks].
  - exists d0. split; [reflexivity|]. split; [auto|]. intros [|x l1] c l2 E; discriminate.
  - inversion HN as [|? ? Hc HN']; subst. destruct (HX c (or_introl eq_refl)) as (b & s & E1 & E2). unfold lookup. rewrite E1. cbn [bind]. rewrite E2. cbn [bind]. cbv zeta.
    assert (EN : names_of c = s_names s) by (unfold names_of; rewrite E1, E2; reflexivity). rewrite <- EN.
    destruct (IH HN' (fun x Hx => HX x (or_intror Hx)) (counter + length (names_of c))%nat (dset c (firstn (length (names_of c)) (skipn counter row)) d0)) as (d & HE & HO & HB).
    exists d. split; [exact HE|]. split.
    + intros x Hx. rewrite HO by (intros H; apply Hx; right; exact H). apply dget_dset_other. intros ->. apply Hx. left. reflexivity.
    + intros [|y l1] x l2 E; cbn [app] in E.
      * injection E as -> ->. rewrite HO by exact Hc. rewrite dget_dset_same. cbn [size fold_right]. rewrite Nat.add_0_r. reflexivity.
      * injection E as -> ->. rewrite (HB l1 x l2 eq_refl). cbn [size fold_right]. fold (size l1). rewrite Nat.add_assoc. reflexivity.
Qed.

Lemma names_length sorted : length (flat_map (fun c => map (fun v => (c ++ "_" ++ v)%string) (names_of c)) sorted) = size sorted.
Proof. induction sorted as [|c l IH]; [reflexivity|]. cbn [flat_map size fold_right]. rewrite app_length, map_length, IH. reflexivity. Qed.

Lemma skipn_skipn' {A} n m (l : list A) : skipn n (skipn m l) = skipn (m + n) l.
Proof. revert l. induction m as [|m IH]; intros l; [reflexivity|]. destruct l as [|x l]; [cbn; destruct n; reflexivity|]. cbn. apply IH. Qed.

Lemma size_app a b : size (a ++ b) = (size a + size b)%nat.
Proof. induction a as [|c a IH]; [reflexivity|]. cbn [app size fold_right]. fold (size (a ++ b)) (size a). rewrite IH. lia. Qed.

Lemma blocks_concat sorted (d : dict (list R)) : length row = size sorted ->
  (forall l1 c l2, sorted = l1 ++ c :: l2 -> dget c d = Some (firstn (length (names_of c)) (skipn (size l1) row))) ->
  forall l2 l1, sorted = l1 ++ l2 -> concat (map (fun c => match dget c d with Some b => b | None => [] end) l2) = skipn (size l1) row.
Proof.
  intros HL HB. induction l2 as [|c l2 IH]; intros l1 E.
  - cbn. rewrite app_nil_r in E. subst l1. rewrite skipn_all2 by lia. reflexivity.
  - cbn [map concat]. rewrite (HB l1 c l2 E). rewrite (IH (l1 ++ [c])) by (rewrite <- app_assoc; exact E).
    rewrite <- (firstn_skipn (length (names_of c)) (skipn (size l1) row)) at 2. f_equal. rewrite skipn_skipn', size_app. cbn [size fold_right].
    f_equal. lia.
Qed.

End Independent.

Lemma ssort_nodup l : NoDup l -> NoDup (ssort l).
Proof.
  assert (HI : forall x l, NoDup l -> ~ In x l -> NoDup (sinsert x l)).
  { intros x m. induction m as [|y m IH]; intros HN Hx; cbn [sinsert]; [repeat constructor; intros []|].
    inversion HN as [|? ? Hy HN']; subst. destruct (String.compare x y).
    - constructor; [exact Hx|exact HN].
    - constructor; [exact Hx|exact HN].
    - constructor; [|apply IH; [exact HN'|intros H; apply Hx; right; exact H]]. intros H. apply sinsert_in in H.
      destruct H as [->|H]; [apply Hx; left; reflexivity|contradiction]. }
  induction 1 as [|x l Hx HN IH]; [constructor|]. cbn [ssort fold_right]. fold (ssort l). apply HI; [exact IH|].
  intros H. apply Hx. exact (proj1 (ssort_in _ _) H).
Qed.

Lemma plain_split a : forall b x y, plain a -> plain b -> (a ++ "_" ++ x)%string = (b ++ "_" ++ y)%string -> a = b /\ x = y.
Proof.
  induction a as [|c a IH]; intros [|d b] x y Ha Hb H; cbn in *.
  - injection H as ->. auto.
  - injection H as H _. destruct Hb as [Hb _]. congruence.
  - injection H as H _. destruct Ha as [Ha _]. congruence.
  - injection H as -> H. destruct (IH b x y) as [-> ->]; [tauto|tauto|exact H|auto].
Qed.

(** ** Geometry *)

Lemma origin_unit zenith azimuth : norm2 (origin zenith azimuth) = 1.
Proof.
  unfold norm2, origin, dot. pose proof (sin2_cos2 zenith) as H1. pose proof (sin2_cos2 azimuth) as H2. unfold Rsqr in *.
  replace (sin zenith * cos azimuth * (sin zenith * cos azimuth) + sin zenith * sin azimuth * (sin zenith * sin azimuth) + cos zenith * cos zenith)
    with (sin zenith * sin zenith * (sin azimuth * sin azimuth + cos azimuth * cos azimuth) + cos zenith * cos zenith) by ring.
  rewrite H2. lra.
Qed.

Lemma along_flight x y z t zenith azimuth d px py pz pt : along x y z t zenith azimuth d = (px, py, pz, pt) ->
  Flight (x, y, z) t (px, py, pz) pt zenith azimuth d.
Proof.
  unfold along, direction. intros H. injection H as <- <- <- <-. unfold Flight, minus, scale, origin, c_light. split.
  - f_equal; [f_equal|]; ring.
  - field.
Qed.

Lemma flight_trans p t q t1 r t2 zenith azimuth a b : Flight p t q t1 zenith azimuth a -> Flight q t1 r t2 zenith azimuth b ->
  Flight p t r t2 zenith azimuth (a + b).
Proof.
  destruct p as [[p1 p2] p3], q as [[q1 q2] q3], r as [[r1 r2] r3]. unfold Flight, minus, scale, origin.
  intros [H1 H2] [H3 H4]. injection H1 as A1 A2 A3. injection H3 as B1 B2 B3. split; [f_equal; [f_equal|]; lra|lra].
Qed.

Lemma flight_distance p t q t' zenith azimuth s : Flight p t q t' zenith azimuth s -> norm2 (minus q p) = s * s.
Proof.
  intros [H _]. pose proof (origin_unit zenith azimuth) as HU. revert H HU. destruct p as [[p1 p2] p3], q as [[q1 q2] q3].
  destruct (origin zenith azimuth) as [[o1 o2] o3]. unfold norm2, minus, scale, dot. intros H HU. injection H as H1 H2 H3.
  replace (q1 - p1) with (- (s * o1)) by lra. replace (q2 - p2) with (- (s * o2)) by lra. replace (q3 - p3) with (- (s * o3)) by lra.
  replace (- (s * o1) * - (s * o1) + - (s * o2) * - (s * o2) + - (s * o3) * - (s * o3)) with (s * s * (o1 * o1 + o2 * o2 + o3 * o3)) by ring.
  rewrite HU. ring.
Qed.

(** ** Names of the cascades *)

Lemma cascade_name_inj i j : cascade_name i = cascade_name j -> i = j.
Proof. unfold cascade_name. intros H. apply fmt04_inj. eapply append_inj_l. exact H. Qed.

Lemma cascade_name_track i : cascade_name i <> "track"%string.
Proof. unfold cascade_name. cbn. discriminate. Qed.

(** ** Lookups along a track *)

Lemma track_cascades_ok named x y z t zenith azimuth extra is : NoDup is -> forall d d',
  track_cascades named x y z t zenith azimuth extra is d = Ok d' ->
  (forall k, (forall i, In i is -> k <> cascade_name i) -> dget k d' = dget k d) /\
  forall i, In i is -> exists dist e px py pz pt, dget (cascade_name i ++ "_distance")%string named = Some dist /\
    dget (cascade_name i ++ "_energy")%string named = Some e /\ along x y z t zenith azimuth dist = (px, py, pz, pt) /\
    dget (cascade_name i) d' = Some ([px; py; pz; zenith; azimuth; e; pt] ++ extra).
Proof.
  induction 1 as [|i is Hi HN IH]; intros d d' H; cbn [track_cascades] in H; [injection H as <-; split; [auto|intros i []]|].
  apply bind_ok in H. destruct H as (dist & E1 & H). apply bind_ok in H. destruct H as (e & E2 & H). apply lookup_ok in E1. apply lookup_ok in E2.
  destruct (along x y z t zenith azimuth dist) as [[[px py] pz] pt] eqn:E3. apply IH in H. destruct H as [HO HI]. split.
  - intros k Hk. rewrite HO by (intros j Hj; apply Hk; right; exact Hj). apply dget_dset_other. apply Hk. left. reflexivity.
  - intros j [<-|Hj]; [|apply HI; exact Hj]. exists dist, e, px, py, pz, pt. repeat (split; [assumption|]). rewrite HO; [apply dget_dset_same|].
    intros j Hj Hc. apply cascade_name_inj in Hc. congruence.
Qed.

Lemma track_cascades_total named x y z t zenith azimuth extra is :
  (forall i, In i is -> exists a b, dget (cascade_name i ++ "_distance")%string named = Some a /\ dget (cascade_name i ++ "_energy")%string named = Some b) ->
  forall d, exists d', track_cascades named x y z t zenith azimuth extra is d = Ok d'.
Proof.
  induction is as [|i is IH]; intros HX d; cbn [track_cascades]; [eauto|]. destruct (HX i (or_introl eq_refl)) as (a & b & E1 & E2).
  unfold lookup. rewrite E1. cbn [bind]. rewrite E2. cbn [bind]. destruct (along x y z t zenith azimuth a) as [[[px py] pz] pt]. apply IH.
  intros j Hj. apply HX. right. exact Hj.
Qed.

(** The values of a track. *)
Lemma track_split_ok c named row d : track_split c named row = Ok d ->
  exists x y z zenith azimuth t ds de energy stoch px py pz pt,
    dget "track_anchor_x" named = Some x /\ dget "track_anchor_y" named = Some y /\ dget "track_anchor_z" named = Some z /\
    dget "zenith" named = Some zenith /\ dget "azimuth" named = Some azimuth /\ dget "track_anchor_time" named = Some t /\
    dget "track_distance_start" named = Some ds /\ dget "track_distance_end" named = Some de /\ dget "track_energy" named = Some energy /\
    dget "track_stochasticity" named = Some stoch /\ along x y z t zenith azimuth ds = (px, py, pz, pt) /\
    dget "track" d = Some ([px; py; pz; zenith; azimuth; energy; pt; de - ds; stoch] ++ last_params (num_snowstorm c) row) /\
    ((1 <= num_cascades c)%nat -> exists e0, dget "cascade_0000_energy" named = Some e0 /\
       dget (cascade_name 0) d = Some ([x; y; z; zenith; azimuth; e0; t] ++ last_params (num_snowstorm c) row)) /\
    forall i, (1 <= i < num_cascades c)%nat -> exists dist e qx qy qz qt, dget (cascade_name i ++ "_distance")%string named = Some dist /\
      dget (cascade_name i ++ "_energy")%string named = Some e /\ along x y z t zenith azimuth dist = (qx, qy, qz, qt) /\
      dget (cascade_name i) d = Some ([qx; qy; qz; zenith; azimuth; e; qt] ++ last_params (num_snowstorm c) row).
Proof.
  unfold track_split. intros H.
  apply bind_ok in H. destruct H as (x & E1 & H). apply bind_ok in H. destruct H as (y & E2 & H). apply bind_ok in H. destruct H as (z & E3 & H).
  apply bind_ok in H. destruct H as (zenith & E4 & H). apply bind_ok in H. destruct H as (azimuth & E5 & H). apply bind_ok in H. destruct H as (t & E6 & H).
  apply bind_ok in H. destruct H as (ds & E7 & H). apply bind_ok in H. destruct H as (de & E8 & H). cbv zeta in H.
  apply bind_ok in H. destruct H as (energy & E9 & H). apply bind_ok in H. destruct H as (stoch & E10 & H).
  destruct (along x y z t zenith azimuth ds) as [[[px py] pz] pt] eqn:EA.
  apply lookup_ok in E1, E2, E3, E4, E5, E6, E7, E8, E9, E10.
  exists x, y, z, zenith, azimuth, t, ds, de, energy, stoch, px, py, pz, pt. repeat (split; [assumption|]).
  destruct (Nat.leb_spec 1 (num_cascades c)) as [Hn|Hn].
  - apply bind_ok in H. destruct H as (e0 & E0 & H). apply lookup_ok in E0. apply track_cascades_ok in H; [|apply seq_NoDup]. destruct H as [HO HI].
    split; [|split].
    + rewrite HO by (intros i _; apply not_eq_sym, cascade_name_track). reflexivity.
    + intros _. exists e0. split; [exact E0|]. rewrite HO; [reflexivity|]. intros i Hi Hc. apply cascade_name_inj in Hc. apply in_seq in Hi. lia.
    + intros i Hi. apply HI. apply in_seq. lia.
  - injection H as <-. split; [reflexivity|]. split; intros; lia.
Qed.

Lemma track_sources_eq c : track_sources c = ("track"%string, "track"%string) :: map (fun i => (cascade_name i, "cascade"%string)) (seq 0 (num_cascades c)).
Proof. unfold track_sources. cbn [app]. f_equal. destruct (num_cascades c) as [|n]; [reflexivity|]. cbn [Nat.leb seq map app]. rewrite Nat.sub_succ, Nat.sub_0_r. reflexivity. Qed.

Lemma track_cascades_keys named x y z t zenith azimuth extra is : forall d d', track_cascades named x y z t zenith azimuth extra is d = Ok d' ->
  forall k, dget k d' <> None <-> dget k d <> None \/ exists i, In i is /\ k = cascade_name i.
Proof.
  induction is as [|i is IH]; intros d d' H k; cbn [track_cascades] in H; [injection H as <-; split; [auto|intros [?|(i & [] & _)]; assumption]|].
  apply bind_ok in H. destruct H as (dist & _ & H). apply bind_ok in H. destruct H as (e & _ & H).
  destruct (along x y z t zenith azimuth dist) as [[[px py] pz] pt]. rewrite (IH _ _ H k).
  destruct (string_dec k (cascade_name i)) as [->|Hk].
  - rewrite dget_dset_same. split; [intros _; right; exists i; split; [left; reflexivity|reflexivity]|intros _; left; discriminate].
  - rewrite dget_dset_other by exact Hk. split; intros [?|(j & Hj & ->)]; auto; right; exists j; [split; [right; exact Hj|reflexivity]|].
    destruct Hj as [<-|Hj]; [congruence|auto].
Qed.

Lemma track_split_keys c named row d : track_split c named row = Ok d ->
  forall k, dget k d <> None <-> "track"%string = k \/ exists i, (i < num_cascades c)%nat /\ k = cascade_name i.
Proof.
  unfold track_split. intros H k.
  apply bind_ok in H. destruct H as (x & _ & H). apply bind_ok in H. destruct H as (y & _ & H). apply bind_ok in H. destruct H as (z & _ & H).
  apply bind_ok in H. destruct H as (zenith & _ & H). apply bind_ok in H. destruct H as (azimuth & _ & H). apply bind_ok in H. destruct H as (t & _ & H).
  apply bind_ok in H. destruct H as (ds & _ & H). apply bind_ok in H. destruct H as (de & _ & H). cbv zeta in H.
  apply bind_ok in H. destruct H as (energy & _ & H). apply bind_ok in H. destruct H as (stoch & _ & H).
  destruct (along x y z t zenith azimuth ds) as [[[px py] pz] pt].
  set (v := [px; py; pz; zenith; azimuth; energy; pt; de - ds; stoch] ++ last_params (num_snowstorm c) row) in H.
  assert (HT : forall k, dget k [("track"%string, v)] <> None <-> "track"%string = k).
  { intros k'. cbn [dget]. destruct (String.eqb_spec k' "track") as [->|Hk]; [split; [reflexivity|discriminate]|]. split; [congruence|intros <-; congruence]. }
  destruct (Nat.leb_spec 1 (num_cascades c)) as [Hn|Hn].
  - apply bind_ok in H. destruct H as (e0 & _ & H). rewrite (track_cascades_keys _ _ _ _ _ _ _ _ _ _ _ H k).
    destruct (string_dec k (cascade_name 0)) as [->|Hk].
    + change (cascade_name 0) with "cascade_0000"%string. rewrite dget_dset_same. split; [intros _; right; exists 0%nat; split; [lia|reflexivity]|intros _; left; discriminate].
    + change (cascade_name 0) with "cascade_0000"%string in Hk. rewrite dget_dset_other by exact Hk. rewrite HT. split; intros [?|(i & Hi & ->)]; auto; right; exists i.
      * apply in_seq in Hi. split; [lia|reflexivity].
      * split; [|reflexivity]. apply in_seq. destruct i; [exfalso; apply Hk; reflexivity|lia].
  - injection H as <-. rewrite HT. split; [auto|]. intros [?|(i & Hi & _)]; [assumption|lia].
Qed.

Lemma track_names_in format c : forall k, In k (["zenith"; "azimuth"; "track_anchor_x"; "track_anchor_y"; "track_anchor_z"; "track_anchor_time"; "track_energy";
   "track_distance_start"; "track_distance_end"; "track_stochasticity"]%string ++ (if Nat.leb 1 (num_cascades c) then ["cascade_0000_energy"%string] else [])
  ++ flat_map (fun i => [(cascade_name i ++ "_energy")%string; (cascade_name i ++ "_distance")%string]) (seq 1 (num_cascades c - 1))) -> In k (track_names format c).
Proof. intros k. unfold track_names. rewrite !app_assoc. intros H. apply in_or_app. left. exact H. Qed.

(** With all names present the track can be split. *)
Lemma track_split_total format c row named : indexer (track_names format c) row = Ok named -> exists d, track_split c named row = Ok d.
Proof.
  intros HI. assert (HS : forall k, In k (track_names format c) -> exists v, dget k named = Some v) by (intros k; eapply indexer_some; exact HI).
  assert (HB : forall k, In k ["zenith"; "azimuth"; "track_anchor_x"; "track_anchor_y"; "track_anchor_z"; "track_anchor_time"; "track_energy";
   "track_distance_start"; "track_distance_end"; "track_stochasticity"]%string -> exists v, dget k named = Some v).
  { intros k Hk. apply HS, track_names_in. apply in_or_app. left. exact Hk. }
  unfold track_split, lookup.
  destruct (HB "track_anchor_x"%string ltac:(cbn; tauto)) as (x & ->). cbn [bind].
  destruct (HB "track_anchor_y"%string ltac:(cbn; tauto)) as (y & ->). cbn [bind].
  destruct (HB "track_anchor_z"%string ltac:(cbn; tauto)) as (z & ->). cbn [bind].
  destruct (HB "zenith"%string ltac:(cbn; tauto)) as (zenith & ->). cbn [bind].
  destruct (HB "azimuth"%string ltac:(cbn; tauto)) as (azimuth & ->). cbn [bind].
  destruct (HB "track_anchor_time"%string ltac:(cbn; tauto)) as (t & ->). cbn [bind].
  destruct (HB "track_distance_start"%string ltac:(cbn; tauto)) as (ds & ->). cbn [bind].
  destruct (HB "track_distance_end"%string ltac:(cbn; tauto)) as (de & ->). cbn [bind]. cbv zeta.
  destruct (HB "track_energy"%string ltac:(cbn; tauto)) as (en & ->). cbn [bind].
  destruct (HB "track_stochasticity"%string ltac:(cbn; tauto)) as (st & ->). cbn [bind].
  destruct (along x y z t zenith azimuth ds) as [[[px py] pz] pt]. destruct (Nat.leb 1 (num_cascades c)) eqn:En; [|eauto].
  destruct (HS "cascade_0000_energy"%string) as (e0 & ->); [apply track_names_in; apply in_or_app; right; rewrite En; left; reflexivity|]. cbn [bind].
  apply track_cascades_total. intros i Hi.
  assert (HC : forall k, In k [(cascade_name i ++ "_energy")%string; (cascade_name i ++ "_distance")%string] -> exists v, dget k named = Some v).
  { intros k Hk. apply HS, track_names_in. apply in_or_app. right. apply in_or_app. right. apply in_flat_map. exists i. auto. }
  destruct (HC (cascade_name i ++ "_distance")%string) as (a & Ea); [right; left; reflexivity|].
  destruct (HC (cascade_name i ++ "_energy")%string) as (b & Eb); [left; reflexivity|]. eauto.
Qed.

(** ** Muons *)

Lemma muon_cascades_ok named x y z t zenith azimuth l : NoDup (map fst l) -> forall d d',
  muon_cascades named x y z t zenith azimuth l d = Ok d' ->
  (forall k, ~ In k (map fst l) -> dget k d' = dget k d) /\
  forall i name dist, nth_error l i = Some (name, dist) -> exists le, dget (name ++ "_log_energy")%string named = Some le /\
    dget name d' = Some (muon_cascade x y z t zenith azimuth le dist).
Proof.
  induction l as [|[name dist] l IH]; intros HN d d' H; cbn [muon_cascades] in H; [injection H as <-; split; [auto|intros [|i] ? ? E; discriminate]|].
  cbn [map fst] in HN. inversion HN as [|? ? Hn HN']; subst. apply bind_ok in H. destruct H as (le & E & H). apply lookup_ok in E.
  destruct (IH HN' _ _ H) as [HO HI]. split.
  - intros k Hk. rewrite HO by (intros Hk'; apply Hk; right; exact Hk'). apply dget_dset_other. intros ->. apply Hk. left. reflexivity.
  - intros [|i] nm ds Ei; [|eapply HI; exact Ei]. cbn in Ei. injection Ei as <- <-. exists le. split; [exact E|]. rewrite HO by exact Hn. apply dget_dset_same.
Qed.

Lemma muon_cascades_total named x y z t zenith azimuth l : (forall p, In p l -> exists v, dget (fst p ++ "_log_energy")%string named = Some v) ->
  forall d, exists d', muon_cascades named x y z t zenith azimuth l d = Ok d'.
Proof.
  induction l as [|[name dist] l IH]; intros HX d; cbn [muon_cascades]; [eauto|]. destruct (HX _ (or_introl eq_refl)) as (v & E). cbn [fst] in E.
  unfold lookup. rewrite E. cbn [bind]. apply IH. intros p Hp. apply HX. right. exact Hp.
Qed.

Lemma muon_keys n : dkeys (muon_sources n) = map cascade_name (seq 0 n).
Proof. unfold dkeys, muon_sources. rewrite map_map. reflexivity. Qed.

Lemma distances_length n : length (distances n) = n.
Proof. destruct n as [|[|n]]; [reflexivity|reflexivity|]. cbn [distances]. unfold linspace. rewrite map_length, seq_length. reflexivity. Qed.

Lemma nodup_map {A B} (f : A -> B) l : (forall x y, f x = f y -> x = y) -> NoDup l -> NoDup (map f l).
Proof.
  intros Hf. induction 1 as [|x l Hx HN IH]; [constructor|]. cbn. constructor; [|exact IH]. intros H. apply in_map_iff in H. destruct H as (y & E & Hy).
  apply Hf in E. congruence.
Qed.
