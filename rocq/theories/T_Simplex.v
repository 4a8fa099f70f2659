(** Property C98 (single iterations of the optimiser) and the parts of C79
    which are about its history. *)
From Coq Require Import Psatz Sorting.Sorted Sorting.Permutation.
From Verif Require Import Py PyFacts RList M_Sphere S_Sphere L_Sphere T_Sphere M_Opt S_Opt L_Opt T_Opt S_Simplex L_Simplex.

Section History.
  Variable func : list R -> R.
  Variable argsort : list R -> list nat.
  Variable rnd : nat -> draws.
  Variable g : config.
  Variable ndim : nat.

  Notation loop := (loop func argsort rnd g ndim).
  Notation step := (step func argsort rnd g ndim).
  Notation F := (fun p => func (create_x ndim (g_spher g) p)).
  Notation w := (length (cartesians ndim (g_spher g))).
  Notation v := (length (g_spher g)).

  Definition next (k : nat) (l l' : list pt) : Prop :=
    match g_method g with
    | NelderMead => nm_next F l l'
    | CRS2 => crs_next F (rnd k) l l'
    | OtherMethod => False
    end.

  Definition center (l : list pt) (c : pt) : Prop := is_center l c /\ length (ps c) = v.
  Definition converged (l : list pt) (c : pt) : Prop :=
    coords_met (g_cstd g) l /\ directions_met (g_sstd g) l c.
  Definition checked (l : list pt) : Prop :=
    g_fstd g <= std (map F l) /\
    ((some_threshold (g_cstd g) \/ some_threshold (g_sstd g)) -> exists c, center l c /\ ~ converged l c).

  Record tracked (n k : nat) (sims : nat -> list pt) (st : state) : Prop := {
    tr_good : good func g ndim w v n st;
    tr_inv : inv func n st;
    tr_pts : s_pts st = sims k;
    tr_next : forall i, (i < k)%nat -> next i (sims i) (sims (S i));
    tr_mono : forall i j, (i <= j <= k)%nat -> not_below F (sims i) (sims j);
    tr_noimp : k = 0%nat /\ s_noimp st = (-1)%Z /\ (forall p, In p (sims 0%nat) -> s_best st <= F p) /\
        (exists p, In p (sims 0%nat) /\ F p = s_best st) \/
      exists j, (j < k)%nat /\ s_noimp st = (Z.of_nat (k - 1) - Z.of_nat j)%Z /\
        (exists p, In p (sims j) /\ F p = s_best st) /\ (forall p, In p (sims (k - 1)%nat) -> s_best st <= F p) /\
        (j = 0%nat \/ forall q, In q (sims (j - 1)%nat) -> s_best st < F q);
    tr_improved : forall m i, g_max_noimp g = Some m -> m <> 0%nat -> (m + 2 <= i < k)%nat ->
      improved F (sims (i - 1)%nat) (sims (i - 2 - m)%nat);
    tr_checked : forall i, (i < k)%nat -> checked (sims i) }.

  Hypothesis NS : forall l, is_argsort l (argsort l).

  Lemma not_below_trans l1 l2 l3 : not_below F l1 l2 -> not_below F l2 l3 -> not_below F l1 l3.
  Proof.
    intros A B p Hp. destruct (A p Hp) as (q & Hq & L). destruct (B q Hq) as (q' & Hq' & L'). exists q'. split; [exact Hq'|lra].
  Qed.

  Lemma no_worse_points n st st' : good func g ndim w v n st -> good func g ndim w v n st' ->
    no_worse (s_f st) (s_f st') -> not_below F (s_pts st) (s_pts st').
  Proof.
    intros (_ & _ & E & _) (_ & _ & E' & _) H p Hp. destruct (H (F p)) as (f & Hf & L).
    - rewrite E. apply (in_map F). exact Hp.
    - rewrite E' in Hf. apply in_map_iff in Hf. destruct Hf as (q & <- & Hq). exists q. split; assumption.
  Qed.

  Variable n : nat.
  Hypothesis FIT : accepted g ndim n.
  Hypothesis ND : (0 < ndim)%nat.
  Hypothesis RND : forall k, draws_sound g ndim w n (rnd k).

  Lemma fits_n : fits g n.
  Proof. apply (accepted_fits g ndim); assumption. Qed.

  Lemma choice_length k : length (d_choice (rnd k)) = g_batch g.
  Proof. apply (RND k). Qed.

  Lemma step_next k st st' : good func g ndim w v n st -> inv func n st -> step k st = Ok st' ->
    next k (s_pts st) (s_pts st') /\ good func g ndim w v n st' /\ inv func n st' /\ no_worse (s_f st) (s_f st').
  Proof.
    intros G I E. destruct (step_good func argsort rnd g ndim NS choice_length n k st I fits_n) as (st'' & E' & I' & W & _).
    rewrite E in E'. injection E' as <-.
    assert (N : (0 < n)%nat) by (destruct fits_n as [(_ & H)|(_ & H & _)]; lia).
    unfold M_Opt.step in E. pose proof (note_best_inv func argsort NS n st I N) as NB.
    destruct (note_best argsort st) as (so, st1) eqn:ENB. destruct NB as (-> & I1 & EF & _ & EB).
    assert (EP : s_pts st1 = s_pts st /\ s_x st1 = s_x st).
    { unfold note_best in ENB. injection ENB as _ <-. destruct (Rltb _ _); split; reflexivity. }
    destruct EP as (EP & EX).
    assert (G1 : good func g ndim w v n st1) by (unfold good; rewrite EP, EF, EX; exact G).
    assert (X : next k (s_pts st1) (s_pts st') /\ good func g ndim w v n st').
    { unfold next. destruct FIT as ([(M & B & L)|(M & B & L)] & _); rewrite M in E |- *.
      - injection E as <-. destruct (step_nm_next func argsort g ndim w v NS n st1 G1 ltac:(lia) EB) as (A1 & A2). split; [exact A1|exact A2].
      - apply (step_crs_next func argsort g ndim w v NS n (rnd k) st1 st' G1 N ND L (RND k) eq_refl EB E). }
    rewrite EP in X. destruct X as (X1 & X2). split; [exact X1|]. split; [exact X2|]. split; assumption.
  Qed.

  (** *** The stopping conditions *)

  Lemma spher_std_spread l : l <> [] -> Forall (shaped w v) l -> spher_std l = spread l (centroid l).
  Proof.
    intros NE S. destruct (centroid_ok w v l NE S) as (_ & SC). unfold spher_std, spread. cbv zeta.
    assert (LC : length (ps (centroid l)) = v) by apply SC. rewrite LC.
    set (c := centroid l) in *. f_equal. unfold Rdiv. f_equal.
    assert (X : forall l', Forall (shaped w v) l' ->
      Rsum (map (fun d => d ^ 2) (concat (map (fun p => zipw angular_dist (ps p) (ps c)) l'))) =
      Rsum (map (fun p => Rsum (map (fun k => acos (dot (dirn p k) (dirn c k)) ^ 2) (seq 0 v))) l')).
    { induction 1 as [|p l' SP _ IH]; [reflexivity|]. cbn [map concat]. rewrite map_app, Rsum_app, Rsum_cons, IH. f_equal. f_equal.
      apply (nth_ext _ _ 0 0).
      - rewrite !map_length, zipw_len, seq_length. destruct SP as (_ & -> & _). rewrite LC. apply Nat.min_id.
      - intros i Hi. rewrite map_length, zipw_len in Hi. destruct SP as (P1 & P2 & P3). rewrite LC, P2, Nat.min_id in Hi.
        rewrite (nth_map_seq (fun k => acos (dot (dirn p k) (dirn c k)) ^ 2)) by exact Hi.
        rewrite (nth_indep _ 0 ((fun d => d ^ 2) 0)) by (rewrite map_length, zipw_len; lia). rewrite (map_nth (fun d => d ^ 2)).
        rewrite (nth_zipw _ _ _ _ spher_zero spher_zero) by lia. f_equal. apply angular_dot.
        + apply (shaped_dir w v); [split; [|split]; eassumption|exact Hi].
        + apply (shaped_dir w v); [exact SC|exact Hi]. }
    apply X. exact S.
  Qed.

  Lemma coords_met_iff l o : coords_met o l <-> match active o with Some th => cart_converged th l = true | None => True end.
  Proof.
    unfold coords_met, active. destruct o as [th|]; [|split; [auto|intros _ th i H; discriminate]].
    assert (X : (forall th0 i, Some th = Some th0 -> (i < length th0)%nat -> 0 < nth i th0 0 ->
       exists z, IZR z <= std (map (fun p => coord p i) l) < IZR z + 1 /\ IZR z < nth i th0 0) <-> cart_converged th l = true).
    { unfold cart_converged. rewrite forallb_forall. split.
      - intros H i Hi. apply in_seq in Hi. destruct (Rltb 0 (nth i th 0)) eqn:P; [|reflexivity]. cbn [negb orb].
        apply (proj1 (Rltb_true _ _)) in P. destruct (H th i eq_refl ltac:(lia) P) as (z & (Z1 & Z2) & Z3).
        apply (proj2 (Rltb_true _ _)). unfold truncate. unfold column. rewrite map_map. change (fun x => nth i (pc x) 0) with (fun p => coord p i).
        replace (Int_part (std (map (fun p => coord p i) l))) with z; [exact Z3|]. unfold Int_part.
        assert (z + 1 = up (std (map (fun p => coord p i) l)))%Z; [|lia]. apply tech_up; rewrite plus_IZR; lra.
      - intros H th0 i E Hi P. injection E as <-. specialize (H i ltac:(apply in_seq; lia)). apply orb_prop in H. destruct H as [H|H].
        + apply negb_true_iff in H. apply (proj1 (Rltb_false _ _)) in H. lra.
        + apply (proj1 (Rltb_true _ _)) in H. unfold truncate, column in H. rewrite map_map in H. change (fun x => nth i (pc x) 0) with (fun p => coord p i) in H.
          set (s := std _) in *. exists (Int_part s). destruct (base_Int_part s) as (B1 & B2). split; [split; lra|exact H]. }
    rewrite X. destruct (some_positive th) eqn:SP; [reflexivity|]. split; [auto|]. intros _. unfold cart_converged. rewrite forallb_forall.
    intros i Hi. apply in_seq in Hi. destruct (Rltb 0 (nth i th 0)) eqn:P; [|reflexivity]. exfalso.
    apply (proj1 (Rltb_true _ _)) in P. assert (some_positive th = true) by (apply some_positive_true; exists (nth i th 0); split; [apply nth_In; lia|exact P]). congruence.
  Qed.

  Lemma spher_loop_ok th sd ns i c r : spher_loop th sd ns i c = Ok r ->
    (r = true <-> c = true /\ forall t, In t th -> 0 < t -> sd < t).
  Proof.
    revert c. induction th as [|a th IH]; intros c H; cbn [spher_loop] in H.
    - injection H as <-. split; [intros ->; split; [reflexivity|intros t []]|tauto].
    - destruct (Rltb 0 a) eqn:P.
      + apply (proj1 (Rltb_true _ _)) in P. apply IH in H. rewrite H, andb_true_iff. rewrite (Rltb_true sd a). split.
        * intros ((A & B) & C). split; [exact A|]. intros t [<-|Ht] T; [exact B|apply C; assumption].
        * intros (A & B). split; [split; [exact A|apply B; [left; reflexivity|exact P]]|]. intros t Ht T. apply B; [right; exact Ht|exact T].
      + apply (proj1 (Rltb_false _ _)) in P. destruct i as [k|]; [|discriminate]. destruct (Nat.ltb k ns); [|discriminate].
        apply IH in H. rewrite H. split; intros (A & B); (split; [exact A|]).
        * intros t [<-|Ht] T; [lra|apply B; assumption].
        * intros t Ht T. apply B; [right; exact Ht|exact T].
  Qed.

  Lemma active_some o th : active o = Some th <-> o = Some th /\ some_threshold o.
  Proof.
    unfold active, some_threshold. destruct o as [l|]; [|split; [discriminate|intros (H & _); discriminate]].
    destruct (some_positive l) eqn:SP.
    - apply some_positive_true in SP. destruct SP as (t & It & Pt). split.
      + intros H. injection H as <-. split; [reflexivity|]. exists l, t. auto.
      + intros (H & _). exact H.
    - split; [discriminate|]. intros (H & th' & t & E & It & Pt). exfalso.
      assert (some_positive l = true) by (apply some_positive_true; injection E as <-; exists t; auto). congruence.
  Qed.

  Lemma active_none o : active o = None <-> ~ some_threshold o.
  Proof.
    destruct (active o) as [th|] eqn:A.
    - apply active_some in A. split; [discriminate|]. intros H. destruct A as (_ & A). contradiction.
    - split; [|auto]. intros _ H. assert (X : exists th, o = Some th) by (destruct H as (th & _ & E & _); eauto). destruct X as (th & E).
      assert (active o = Some th) by (apply active_some; auto). congruence.
  Qed.

  Lemma check_cond st r : good func g ndim w v n st -> (0 < n)%nat -> check g st = Ok r ->
    (r = Some 3%Z -> (some_threshold (g_cstd g) \/ some_threshold (g_sstd g)) /\ exists c, center (s_pts st) c /\ converged (s_pts st) c) /\
    (r = Some 2%Z -> exists m, g_max_noimp g = Some m /\ m <> 0%nat /\ (Z.of_nat m < s_noimp st)%Z) /\
    (r = None -> checked (s_pts st) /\ forall m, g_max_noimp g = Some m -> m <> 0%nat -> (s_noimp st <= Z.of_nat m)%Z).
  Proof.
    intros G N. pose proof G as (GL & GS & GF & _). unfold check.
    assert (NE : s_pts st <> []) by (intros E; rewrite E in GL; cbn in GL; lia).
    destruct (limit (g_max_calls g) _); [intros H; injection H as <-; repeat split; discriminate|].
    destruct (limit (g_max_noimp g) _) eqn:LN.
    { intros H. injection H as <-. split; [discriminate|]. split; [|discriminate]. intros _. unfold limit in LN.
      destruct (g_max_noimp g) as [m|]; [|discriminate]. apply andb_prop in LN. destruct LN as (A & B). exists m. split; [reflexivity|].
      apply negb_true_iff, Nat.eqb_neq in A. apply Z.ltb_lt in B. split; assumption. }
    destruct (Rltb (std (s_f st)) (g_fstd g)) eqn:FS; [intros H; injection H as <-; repeat split; discriminate|].
    apply (proj1 (Rltb_false _ _)) in FS.
    assert (NM : forall m, g_max_noimp g = Some m -> m <> 0%nat -> (s_noimp st <= Z.of_nat m)%Z).
    { intros m E Hm. unfold limit in LN. rewrite E, (proj2 (Nat.eqb_neq _ _) Hm) in LN. cbn [negb andb] in LN. apply Z.ltb_ge in LN. exact LN. }
    pose proof (coords_met_iff (s_pts st) (g_cstd g)) as CM.
    destruct (centroid_ok w v (s_pts st) NE GS) as (CC & CS). set (c := centroid (s_pts st)) in *.
    assert (CE : center (s_pts st) c) by (split; [exact CC|apply CS]).
    assert (DM : directions_met (g_sstd g) (s_pts st) c <->
              match active (g_sstd g) with Some th => forall t, In t th -> 0 < t -> spher_std (s_pts st) < t | None => True end).
    { rewrite (spher_std_spread _ NE GS). fold c. unfold directions_met. destruct (active (g_sstd g)) as [th|] eqn:A.
      - apply active_some in A. destruct A as (A & _). split.
        + intros H t. apply (H th). exact A.
        + intros H th' t E. rewrite A in E. injection E as <-. apply H.
      - apply active_none in A. split; [auto|]. intros _ th t E It Pt. exfalso. apply A. exists th, t. auto. }
    assert (MAIN : forall cv, (cv = true <-> converged (s_pts st) c) -> Ok (if cv then Some 3%Z else None) = Ok r ->
       (some_threshold (g_cstd g) \/ some_threshold (g_sstd g)) ->
       (r = Some 3%Z -> (some_threshold (g_cstd g) \/ some_threshold (g_sstd g)) /\ exists c, center (s_pts st) c /\ converged (s_pts st) c) /\
       (r = Some 2%Z -> exists m, g_max_noimp g = Some m /\ m <> 0%nat /\ (Z.of_nat m < s_noimp st)%Z) /\
       (r = None -> checked (s_pts st) /\ forall m, g_max_noimp g = Some m -> m <> 0%nat -> (s_noimp st <= Z.of_nat m)%Z)).
    { intros cv CV H TH. injection H as <-. destruct cv.
      - split; [|split; discriminate]. intros _. split; [exact TH|]. exists c. split; [exact CE|]. apply CV. reflexivity.
      - split; [discriminate|]. split; [discriminate|]. intros _. split; [|exact NM]. split; [rewrite <- GF; lra|]. intros _.
        exists c. split; [exact CE|]. intros H. apply CV in H. discriminate. }
    destruct (active (g_cstd g)) as [cth|] eqn:AC; destruct (active (g_sstd g)) as [sth|] eqn:ASS; cbn [bind].
    - apply active_some in AC. destruct AC as (_ & AC). intros H. apply bind_ok in H. destruct H as (cv & H1 & H2).
      apply (MAIN cv); [|exact H2|left; exact AC]. unfold converged. rewrite CM, DM. apply spher_loop_ok in H1. exact H1.
    - apply active_some in AC. destruct AC as (_ & AC). intros H. apply (MAIN (cart_converged cth (s_pts st))); [|exact H|left; exact AC].
      unfold converged. rewrite CM, DM. tauto.
    - apply active_some in ASS. destruct ASS as (_ & ASS). intros H. apply bind_ok in H. destruct H as (cv & H1 & H2).
      apply (MAIN cv); [|exact H2|right; exact ASS]. unfold converged. rewrite CM, DM. apply spher_loop_ok in H1. tauto.
    - apply active_none in AC. apply active_none in ASS. intros H. injection H as <-. split; [discriminate|]. split; [discriminate|]. intros _.
      split; [|exact NM]. split; [rewrite <- GF; lra|]. intros [T|T]; contradiction.
  Qed.

  (** *** The loop *)

  Definition extend (sims : nat -> list pt) (k : nat) (l : list pt) (i : nat) : list pt :=
    if Nat.eqb i k then l else sims i.

  Lemma step_tracked k sims st st' : tracked n k sims st -> (0 < n)%nat -> check g st = Ok None -> step k st = Ok st' ->
    tracked n (S k) (extend sims (S k) (s_pts st')) st'.
  Proof.
    intros [G I P NX MO NI IM CK] N CH E. destruct (step_next k st st' G I E) as (X & G' & I' & W).
    destruct (check_cond st None G N CH) as (_ & _ & CN). destruct (CN eq_refl) as (CN1 & CN2).
    set (sims' := extend sims (S k) (s_pts st')).
    assert (OLD : forall i, (i <= k)%nat -> sims' i = sims i).
    { intros i Hi. unfold sims', extend. destruct (Nat.eqb_spec i (S k)); [lia|reflexivity]. }
    assert (NEW : sims' (S k) = s_pts st') by (unfold sims', extend; rewrite Nat.eqb_refl; reflexivity).
    assert (BELOW : not_below F (sims k) (s_pts st')) by (rewrite <- P; apply (no_worse_points n); assumption).
    constructor; try assumption.
    - symmetry. exact NEW.
    - intros i Hi. destruct (Nat.eq_dec i k) as [->|NE].
      + rewrite OLD, NEW by lia. rewrite <- P. exact X.
      + rewrite !OLD by lia. apply NX. lia.
    - intros i j Hij. destruct (Nat.eq_dec j (S k)) as [->|NE].
      + rewrite NEW. destruct (Nat.eq_dec i (S k)) as [->|NE].
        * rewrite NEW. intros p Hp. exists p. split; [exact Hp|lra].
        * rewrite OLD by lia. apply not_below_trans with (sims k); [apply MO; lia|exact BELOW].
      + rewrite !OLD by lia. apply MO. lia.
    - right.
      assert (ST : s_best st' = s_best (snd (note_best argsort st)) /\ s_noimp st' = s_noimp (snd (note_best argsort st))).
      { unfold M_Opt.step in E. destruct (note_best argsort st) as (so, st1). cbn [snd].
        destruct FIT as ([(M & _)|(M & _)] & _); rewrite M in E.
        - injection E as <-. unfold step_nm. cbv zeta.
          assert (SHR : forall b l s, s_best (fold_left (shrink_one func g ndim b) l s) = s_best s /\ s_noimp (fold_left (shrink_one func g ndim b) l s) = s_noimp s).
          { intros b l. induction l as [|a l IH]; intros s; [split; reflexivity|]. cbn [fold_left]. destruct (IH (shrink_one func g ndim b s a)) as (A & B).
            rewrite A, B. unfold shrink_one. destruct (Nat.eqb a b); split; reflexivity. }
          repeat match goal with |- s_best (if ?c then _ else _) = _ /\ _ => destruct c end; try (split; reflexivity).
          match goal with |- s_best (fold_left _ ?l ?s) = _ /\ _ => exact (SHR _ l s) end.
        - unfold step_crs in E. apply bind_ok in E. destruct E as (reps & _ & E). destruct (Nat.eqb _ _); [injection E as <-; split; reflexivity|].
          apply bind_ok in E. destruct E as (reps2 & _ & E). injection E as <-. split; reflexivity. }
      destruct ST as (SB & SN). rewrite SB, SN. clear SB SN.
      pose proof G as (GL & GS & GF & _).
      assert (LF : length (s_f st) = n) by (rewrite GF, map_length; exact GL).
      assert (NE : s_f st <> []) by (intros E'; rewrite E' in LF; cbn in LF; lia).
      destruct (argsort_head_min (s_f st) _ (NS _) NE) as (HB1 & HB2). set (b := hd 0%nat (argsort (s_f st))) in *.
      assert (EB : nth b (s_f st) 0 = F (pnth b (sims k))) by (rewrite <- P; apply (good_nth func g ndim w v n); [exact G|lia]).
      assert (IB : In (pnth b (sims k)) (sims k)) by (apply nth_In; rewrite <- P, GL; lia).
      assert (MIN : forall p, In p (sims k) -> nth b (s_f st) 0 <= F p) by (intros p Hp; apply HB2; rewrite GF; apply (in_map F); rewrite P; exact Hp).
      unfold note_best. cbv zeta. fold b. cbn [snd]. destruct (Rltb (nth b (s_f st) 0) (s_best st)) eqn:LT; cbn [s_best s_noimp].
      + apply (proj1 (Rltb_true _ _)) in LT. exists k. replace (S k - 1)%nat with k by lia. split; [lia|]. split; [lia|]. rewrite OLD by lia. split.
        * exists (pnth b (sims k)). split; [exact IB|symmetry; exact EB].
        * split; [exact MIN|]. destruct (Nat.eq_dec k 0) as [->|NK]; [left; reflexivity|right]. intros q Hq. rewrite OLD in Hq by lia.
          destruct NI as [(Z & _)|(j & _ & _ & _ & BD & _)]; [lia|]. specialize (BD q Hq). lra.
      + apply (proj1 (Rltb_false _ _)) in LT. assert (LB : forall p, In p (sims k) -> s_best st <= F p) by (intros p Hp; specialize (MIN p Hp); lra).
        destruct NI as [(-> & N1 & _ & AT)|(j & Hj & N1 & AT & BD & IMP)].
        * exists 0%nat. split; [lia|]. split; [lia|]. rewrite OLD by lia. split; [exact AT|]. split; [exact LB|left; reflexivity].
        * exists j. replace (S k - 1)%nat with k by lia. split; [lia|]. split; [lia|]. rewrite !OLD by lia. split; [exact AT|]. split; [exact LB|].
          destruct IMP as [->|IMP]; [left; reflexivity|right]. exact IMP.
    - intros m i Hm Hm0 Hi. rewrite !OLD by lia. destruct (Nat.eq_dec i k) as [->|NE]; [|apply IM; [exact Hm|exact Hm0|lia]].
      specialize (CN2 m Hm Hm0). destruct NI as [(Z & _)|(j & Hj & N1 & (p & Hp & Ep) & BD & IMP)]; [lia|].
      destruct IMP as [->|IMP]; [lia|]. destruct (MO j (k - 1)%nat ltac:(lia) p Hp) as (q & Hq & Lq).
      exists q. split; [exact Hq|]. intros r Hr. destruct (MO (k - 2 - m)%nat (j - 1)%nat ltac:(lia) r Hr) as (s & Hs & Ls). specialize (IMP s Hs). lra.
    - intros i Hi. rewrite OLD by lia. destruct (Nat.eq_dec i k) as [->|NE]; [rewrite <- P; exact CN1|apply CK; lia].
  Qed.

  Definition steps (o : outcome) : nat := if Z.eqb (o_flag o) (-1) then S (o_nit o) else o_nit o.

  Record told (o : outcome) (sims : nat -> list pt) : Prop := {
    to_xs : o_xs o = map (create_x ndim (g_spher g)) (sims (steps o));
    to_next : forall i, (i < steps o)%nat -> next i (sims i) (sims (S i));
    to_improved : forall m i, g_max_noimp g = Some m -> m <> 0%nat -> (m + 2 <= i < steps o)%nat ->
      improved F (sims (i - 1)%nat) (sims (i - 2 - m)%nat);
    to_checked : forall i, (i < steps o)%nat -> checked (sims i);
    to_flag2 : o_flag o = 2%Z -> exists m, g_max_noimp g = Some m /\ m <> 0%nat /\ (m + 2 <= o_nit o)%nat /\
      not_below F (sims (o_nit o - 1)%nat) (sims (o_nit o - 2 - m)%nat);
    to_flag3 : o_flag o = 3%Z -> (some_threshold (g_cstd g) \/ some_threshold (g_sstd g)) /\
      exists c, center (sims (o_nit o)) c /\ converged (sims (o_nit o)) c }.

  Lemma loop_told fuel : forall k sims st o, tracked n k sims st -> (0 < n)%nat -> (0 < k \/ 0 < fuel)%nat -> loop fuel k st = Ok o ->
    exists sims', (forall i, (i <= k)%nat -> sims' i = sims i) /\ told o sims'.
  Proof.
    induction fuel as [|fuel IH]; intros k sims st o T N FK E; cbn [M_Opt.loop] in E.
    - injection E as <-. exists sims. split; [reflexivity|]. pose proof T as [G I P NX MO NI IM CK].
      assert (SK : steps (finish (-1) (k - 1) st) = k) by (unfold steps, finish; cbn; lia).
      constructor; rewrite ?SK; try assumption; try discriminate.
      cbn. rewrite <- P. destruct G as (_ & _ & _ & ->). reflexivity.
    - apply bind_ok in E. destruct E as (c & CH & E). destruct c as [f|].
      + injection E as <-. exists sims. split; [reflexivity|]. pose proof T as [G I P NX MO NI IM CK].
        destruct (check_cond st (Some f) G N CH) as (C3 & C2 & _). apply check_flag in CH. destruct CH as (FR & _).
        assert (SK : steps (finish f k st) = k) by (unfold steps, finish; cbn; destruct (Z.eqb_spec f (-1)); [lia|reflexivity]).
        constructor; rewrite ?SK; try assumption; cbn [finish o_xs o_flag o_nit].
        * rewrite <- P. destruct G as (_ & _ & _ & ->). reflexivity.
        * intros ->. destruct (C2 eq_refl) as (m & Hm & Hm0 & L). exists m. split; [exact Hm|]. split; [exact Hm0|].
          destruct NI as [(-> & Z & _)|(j & Hj & N1 & (p & Hp & Ep) & BD & _)]; [lia|]. split; [lia|].
          intros q Hq. specialize (BD q Hq). destruct (MO j (k - 2 - m)%nat ltac:(lia) p Hp) as (r & Hr & Lr). exists r. split; [exact Hr|]. lra.
        * intros ->. rewrite <- P. exact (C3 eq_refl).
      + apply bind_ok in E. destruct E as (st' & ES & E).
        destruct (IH (S k) _ st' o (step_tracked k sims st st' T N CH ES) N ltac:(lia) E) as (sims' & AG & TO).
        exists sims'. split; [|exact TO]. intros i Hi. rewrite AG by lia. unfold extend. destruct (Nat.eqb_spec i (S k)); [lia|reflexivity].
  Qed.
End History.

Lemma min_of_spec l : forall x, min_of x l <= x /\ (forall y, In y l -> min_of x l <= y) /\ (min_of x l = x \/ In (min_of x l) l).
Proof.
  induction l as [|a l IH]; intros x; cbn [min_of].
  - split; [lra|]. split; [intros y []|left; reflexivity].
  - destruct (IH (Rmin x a)) as (A & B & C). pose proof (Rmin_l x a). pose proof (Rmin_r x a). split; [lra|]. split.
    + intros y [<-|Hy]; [lra|apply B; exact Hy].
    + destruct C as [C|C]; [|right; right; exact C]. rewrite C. unfold Rmin. destruct (Rle_dec x a); [left; reflexivity|right; left; reflexivity].
Qed.

Section Theorems.
  Variable func : list R -> R.
  Variable argsort : list R -> list nat.
  Variable rnd : nat -> draws.
  Variable g : config.
  Variable ndim : nat.
  Variable points : list (list R).
  Variable c : list nat.

  Notation value := (fun p => func (create_x ndim (g_spher g) p)).

  (** The hypotheses of all theorems: [np.argsort] sorts, the random numbers
      have the right shapes, the points have [ndim] coordinates. *)
  Hypothesis sorts : forall l, is_argsort l (argsort l).
  Hypothesis positions : cartesian_positions ndim (g_spher g) c.
  Hypothesis drawn : forall k, draws_sound g ndim (length c) (length points) (rnd k).
  Hypothesis sizes : forall p, In p points -> length p = ndim.
  Hypothesis some_dim : (0 < ndim)%nat.

  Lemma run_told o : spherical_opt func argsort rnd g ndim points = Ok o ->
    exists sims, sims 0%nat = map (split_point ndim (g_spher g)) points /\ told func rnd g ndim o sims.
  Proof.
    intros E. pose proof (positions_cartesians _ _ _ positions) as EC. pose proof (opt_ok _ _ _ _ _ _ _ E) as A.
    rewrite opt_accepted in E by exact A. pose proof (accepted_fits g ndim _ A some_dim) as FT.
    assert (N : (0 < length points)%nat) by (destruct FT as [(_ & H)|(_ & H & _)]; lia).
    assert (NE : points <> []) by (intros ->; cbn in N; lia).
    assert (CR : map (create_x ndim (g_spher g)) (map (split_point ndim (g_spher g)) points) = points).
    { rewrite map_map. transitivity (map (fun x => x) points); [|apply map_id]. apply map_ext_in. intros x Hx. apply create_split. apply sizes. exact Hx. }
    assert (VL : map func points = map value (map (split_point ndim (g_spher g)) points)).
    { rewrite <- (map_map (create_x ndim (g_spher g)) func), CR. reflexivity. }
    assert (RD : forall k, draws_sound g ndim (length (cartesians ndim (g_spher g))) (length points) (rnd k)) by (rewrite <- EC; exact drawn).
    destruct (loop_told func argsort rnd g ndim sorts (length points) A some_dim RD (g_max_iter g + 1) 0
      (fun _ => map (split_point ndim (g_spher g)) points) (init_state func g ndim points) o) as (sims & AG & TO); [|exact N|lia|exact E|].
    - constructor; cbn [init_state s_pts s_f s_x s_best s_noimp].
      + split; [apply map_length|]. split; [|split].
        * apply Forall_forall. intros p Hp. apply in_map_iff in Hp. destruct Hp as (x & <- & _). split; [cbn; apply map_length|].
          split; [cbn; apply map_length|]. cbn [split_point ps]. apply Forall_forall. intros s Hs. apply in_map_iff in Hs.
          destruct Hs as (q & <- & _). apply C45_from_angles.
        * exact VL.
        * symmetry. exact CR.
      + apply init_inv. exact NE.
      + reflexivity.
      + intros i Hi. lia.
      + intros i j _ p Hp. exists p. split; [exact Hp|lra].
      + left. split; [reflexivity|]. split; [reflexivity|].
        destruct (min_of_spec (map func points) (hd 0 (map func points))) as (_ & B & C). split.
        * intros p Hp. apply B. rewrite VL. apply (in_map value). exact Hp.
        * assert (IN : In (min_of (hd 0 (map func points)) (map func points)) (map func points)).
          { destruct C as [C|C]; [|exact C]. rewrite C. destruct points as [|x l]; [congruence|]. left. reflexivity. }
          rewrite VL in IN at 3. apply in_map_iff in IN. destruct IN as (p & Ep & Hp). exists p. split; [exact Hp|exact Ep].
      + intros m i _ _ Hi. lia.
      + intros i Hi. lia.
    - exists sims. split; [apply (AG 0%nat); lia|exact TO].
  Qed.

  Lemma told_history o sims : sims 0%nat = map (split_point ndim (g_spher g)) points ->
    told func rnd g ndim o sims -> history func rnd g ndim points o sims.
  Proof.
    intros S0 [A B _ _ _ _]. split; [exact S0|]. split; [exact A|exact B].
  Qed.

  (** C98: every iteration of a run is a step of the Nelder-Mead method, or of
      controlled random search with the drawn random numbers. *)
  Theorem C98_history o : spherical_opt func argsort rnd g ndim points = Ok o ->
    exists sims, history func rnd g ndim points o sims.
  Proof. intros E. destruct (run_told o E) as (sims & S0 & T). exists sims. apply told_history; assumption. Qed.

  (** C79: flag 2 means that the lowest value has not decreased for more than
      [max_noimprovement] iterations, not counting the last one; the search
      goes on as long as it has. *)
  Theorem C79_no_improvement o : spherical_opt func argsort rnd g ndim points = Ok o ->
    exists sims, history func rnd g ndim points o sims /\
    (o_flag o = 2%Z -> exists m, g_max_noimp g = Some m /\ m <> 0%nat /\ (m + 2 <= o_nit o)%nat /\
       not_below value (sims (o_nit o - 1)%nat) (sims (o_nit o - 2 - m)%nat)) /\
    (forall m i, g_max_noimp g = Some m -> m <> 0%nat -> (m + 2 <= i < o_nit o)%nat ->
       improved value (sims (i - 1)%nat) (sims (i - 2 - m)%nat)).
  Proof.
    intros E. destruct (run_told o E) as (sims & S0 & T). exists sims. split; [apply told_history; assumption|].
    split; [apply (to_flag2 _ _ _ _ _ _ T)|]. intros m i Hm H0 Hi. apply (to_improved _ _ _ _ _ _ T); try assumption.
    split; [lia|]. unfold steps. destruct (Z.eqb (o_flag o) (-1)); lia.
  Qed.

  (** C79: flag 3 means that the spreads of the coordinates and the directions
      of the final points are below their thresholds; before, they are not,
      and the values spread by at least [fstdthresh]. *)
  Theorem C79_spread o : spherical_opt func argsort rnd g ndim points = Ok o ->
    exists sims, history func rnd g ndim points o sims /\
    (o_flag o = 3%Z -> (some_threshold (g_cstd g) \/ some_threshold (g_sstd g)) /\
       exists m, is_center (sims (o_nit o)) m /\ length (ps m) = length (g_spher g) /\
         coords_met (g_cstd g) (sims (o_nit o)) /\ directions_met (g_sstd g) (sims (o_nit o)) m) /\
    (forall i, (i < o_nit o)%nat -> g_fstd g <= std (map value (sims i)) /\
       (some_threshold (g_cstd g) \/ some_threshold (g_sstd g) ->
        exists m, is_center (sims i) m /\ length (ps m) = length (g_spher g) /\
          ~ (coords_met (g_cstd g) (sims i) /\ directions_met (g_sstd g) (sims i) m))).
  Proof.
    intros E. destruct (run_told o E) as (sims & S0 & T). exists sims. split; [apply told_history; assumption|]. split.
    - intros F3. destruct (to_flag3 _ _ _ _ _ _ T F3) as (A & m & (B & C) & D & G). split; [exact A|]. exists m. auto.
    - intros i Hi. assert (SI : (i < steps o)%nat) by (unfold steps; destruct (Z.eqb (o_flag o) (-1)); lia).
      destruct (to_checked _ _ _ _ _ _ T i SI) as (A & B). split; [exact A|]. intros TH. destruct (B TH) as (m & (C & D) & G). exists m. auto.
  Qed.
End Theorems.

(** ** Examples *)

(** A run of Nelder-Mead in one dimension. *)
Example nm_history : exists o sims,
  spherical_opt line isort no_draws (simple NelderMead 0 0 None) 1 [[0]; [1]] = Ok o /\
  history line no_draws (simple NelderMead 0 0 None) 1 [[0]; [1]] o sims /\
  (if Z.eqb (o_flag o) (-1) then S (o_nit o) else o_nit o) = 1%nat.
Proof.
  destruct line_run as (o & E & _ & _ & FL).
  destruct (C98_history line isort no_draws (simple NelderMead 0 0 None) 1 [[0]; [1]] [0%nat]) with (o := o) as (sims & H); try exact E.
  - apply isort_ok.
  - split; [repeat constructor|]. intros i. split; [intros [<-|[]]; split; [lia|intros p []]|]. intros (L & _). left. lia.
  - intros k. repeat split; cbn; try contradiction.
  - intros p [<-|[<-|[]]]; reflexivity.
  - lia.
  - exists o, sims. split; [exact E|]. split; [exact H|]. rewrite FL. cbn.
    destruct (C79_flags line isort no_draws (simple NelderMead 0 0 None) 1 [[0]; [1]] o (simple_sound _ _ _ _) ltac:(lia) E) as ([(_ & N)|(N & _)] & _).
    + rewrite N. reflexivity.
    + rewrite FL in N. lia.
Qed.

(** Controlled random search with two new points in every iteration. *)
Example crs_history :
  let g := mk_config CRS2 [] 2 5 (Some 20%nat) (Some 2%nat) 0 (Some [1]) None in
  let rnd := fun _ : nat => mk_draws [[0%nat]; [1%nat]] [[1 / 2]; [1 / 2]] [[]; []] in
  let pts := [[3]; [1]; [2]; [4]; [7]; [6]] in
  exists o sims, spherical_opt line isort rnd g 1 pts = Ok o /\ history line rnd g 1 pts o sims.
Proof.
  cbv zeta. set (g := mk_config CRS2 [] 2 5 (Some 20%nat) (Some 2%nat) 0 (Some [1]) None).
  set (rnd := fun _ : nat => mk_draws [[0%nat]; [1%nat]] [[1 / 2]; [1 / 2]] [[]; []]). set (pts := [[3]; [1]; [2]; [4]; [7]; [6]]).
  assert (NS : numpy_sound isort rnd g) by (split; [exact isort_ok|reflexivity]).
  destruct (proj2 (C43_returns line isort rnd g 1 pts NS ltac:(lia) I)) as (o & E).
  { split; [right; repeat split; cbn; lia|]. split; [intros th H; injection H as <-; reflexivity|discriminate]. }
  destruct (C98_history line isort rnd g 1 pts [0%nat]) with (o := o) as (sims & H); try exact E.
  - apply isort_ok.
  - split; [repeat constructor|]. intros i. split; [intros [<-|[]]; split; [lia|intros p []]|]. intros (L & _). left. lia.
  - intros k. split; [reflexivity|]. split; [|split; [reflexivity|split; [|split; [reflexivity|]]]].
    + intros row [<-|[<-|[]]]; (split; [reflexivity|]); intros i [<-|[]]; cbn; lia.
    + intros row [<-|[<-|[]]]; reflexivity.
    + intros row [<-|[<-|[]]]; reflexivity.
  - intros p Hp. cbn in Hp. repeat (destruct Hp as [<-|Hp]; [reflexivity|]). destruct Hp.
  - lia.
  - exists o, sims. split; assumption.
Qed.
Print Assumptions C98_history.
Print Assumptions C79_no_improvement.
Print Assumptions C79_spread.
