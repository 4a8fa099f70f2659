(** Theorems about the optimiser: C43, C46, C77, C78, C79 and C80. *)
From Coq Require Import Psatz Sorting.Sorted.
From Verif Require Import Py PyFacts RList M_Sphere S_Sphere L_Sphere M_Opt S_Opt L_Opt.

Section Opt.
  Variable func : list R -> R.
  Variable argsort : list R -> list nat.
  Variable rnd : nat -> draws.
  Variable g : config.
  Variable ndim : nat.

  Notation spherical_opt := (spherical_opt func argsort rnd).

  (** ** C43 *)

  Lemma run_good points o : numpy_sound argsort rnd g -> (0 < ndim)%nat ->
    spherical_opt g ndim points = Ok o ->
    good_loop func g (length points) (g_max_iter g + 1) 0
      (init_state func g ndim points) o.
  Proof.
    intros (S & R) D E. pose proof (opt_ok _ _ _ _ _ _ _ E) as A.
    rewrite opt_accepted in E by exact A.
    pose proof (accepted_fits g ndim _ A D) as F.
    assert (NE : points <> [])
      by (intros ->; destruct F as [(_ & F) | (_ & F & _)]; simpl in F; lia).
    exact (loop_good func argsort rnd g ndim S R (length points) _ _ _ _
             (init_inv func g ndim points NE) F E).
  Qed.

  (** The returned values are those of the returned points. *)
  Theorem C43_values points o : numpy_sound argsort rnd g -> (0 < ndim)%nat ->
    spherical_opt g ndim points = Ok o ->
    o_fvals o = map func (o_xs o) /\ length (o_xs o) = length points /\
    In (o_x o) (o_xs o) /\ o_fun o = func (o_x o).
  Proof.
    intros NS D E. pose proof (run_good points o NS D E) as G.
    split; [apply G |]. split; [apply G |]. split; apply G.
  Qed.

  (** Some returned point is at least as good as any initial one. *)
  Theorem C43_never_worse points o : numpy_sound argsort rnd g -> (0 < ndim)%nat ->
    spherical_opt g ndim points = Ok o ->
    no_worse (map func points) (o_fvals o).
  Proof. intros NS D E. exact (gl_worse _ _ _ _ _ _ _ (run_good points o NS D E)). Qed.

  (** The reported point is at least as good as any initial one if the first
      check did not stop the search. *)
  Theorem C43_reported points o : numpy_sound argsort rnd g -> (0 < ndim)%nat ->
    spherical_opt g ndim points = Ok o ->
    o_flag o = (-1)%Z \/ (0 < o_nit o)%nat ->
    forall p, In p points -> o_fun o <= func p.
  Proof.
    intros NS D E H p Hp.
    apply (gl_best _ _ _ _ _ _ _ (run_good points o NS D E)); [lia | exact H |].
    cbn [init_state s_f]. apply in_map. exact Hp.
  Qed.

  (** If it did, the first point is reported. *)
  Theorem C43_stopped_at_once points o : numpy_sound argsort rnd g -> (0 < ndim)%nat ->
    spherical_opt g ndim points = Ok o ->
    o_flag o <> (-1)%Z -> o_nit o = 0%nat ->
    o_x o = hd [] points /\ o_xs o = points.
  Proof.
    intros NS D E H N. pose proof (opt_ok _ _ _ _ _ _ _ E) as A.
    pose proof (accepted_fits g ndim _ A D) as F. destruct NS as (S & R).
    assert (NE : points <> [])
      by (intros ->; destruct F as [(_ & F) | (_ & F & _)]; simpl in F; lia).
    rewrite opt_accepted in E by exact A.
    replace (g_max_iter g + 1)%nat with (Datatypes.S (g_max_iter g)) in E by lia.
    cbn [loop] in E. apply bind_ok in E. destruct E as ([f |] & _ & E).
    - injection E as <-. cbn. destruct points; [congruence |]. split; reflexivity.
    - exfalso. apply bind_ok in E. destruct E as (st' & ES & E).
      apply (loop_nit func argsort rnd g ndim) in E. destruct E as [E | E]; [auto | lia].
  Qed.

  (** With more iterations and the same random numbers the best returned
      value is not larger. *)
  Theorem C43_more_iterations points m o1 o2 : numpy_sound argsort rnd g ->
    (0 < ndim)%nat -> (g_max_iter g <= m)%nat ->
    spherical_opt g ndim points = Ok o1 ->
    spherical_opt (with_max_iter g m) ndim points = Ok o2 ->
    no_worse (o_fvals o1) (o_fvals o2).
  Proof.
    intros (S & R) D L E1 E2.
    pose proof (opt_ok _ _ _ _ _ _ _ E1) as A.
    pose proof (opt_ok _ _ _ _ _ _ _ E2) as A2.
    pose proof (accepted_fits g ndim _ A D) as F.
    assert (NE : points <> [])
      by (intros ->; destruct F as [(_ & F) | (_ & F & _)]; simpl in F; lia).
    rewrite opt_accepted in E1 by exact A. rewrite opt_accepted in E2 by exact A2.
    cbn [g_max_iter with_max_iter] in E2.
    assert (X : forall fuel k st, loop func argsort rnd (with_max_iter g m) ndim fuel k st =
                                  loop func argsort rnd g ndim fuel k st).
    { reflexivity. }
    rewrite X in E2.
    change (init_state func (with_max_iter g m) ndim points)
      with (init_state func g ndim points) in E2.
    apply (loop_more func argsort rnd g ndim S R (length points) (g_max_iter g + 1)
             (m - g_max_iter g) 0 (init_state func g ndim points));
      [apply init_inv; exact NE | exact F | exact E1 |].
    replace (g_max_iter g + 1 + (m - g_max_iter g))%nat with (m + 1)%nat by lia.
    exact E2.
  Qed.

  (** The search returns exactly for accepted arguments, unless some but not
      all directions are switched off. *)
  Theorem C43_returns points : numpy_sound argsort rnd g -> (0 < ndim)%nat ->
    all_directions_checked g ->
    ((exists o, spherical_opt g ndim points = Ok o) <->
     accepted g ndim (length points)).
  Proof.
    intros (S & R) D AD. split.
    - intros (o & E). exact (opt_ok _ _ _ _ _ _ _ E).
    - intros A. pose proof (accepted_fits g ndim _ A D) as F.
      assert (NE : points <> [])
        by (intros ->; destruct F as [(_ & F) | (_ & F & _)]; simpl in F; lia).
      rewrite opt_accepted by exact A.
      apply (loop_total func argsort rnd g ndim S R (length points));
        [apply init_inv; exact NE | exact F | exact AD].
  Qed.

  (** ** C46 *)

  (** The spread of a coordinate is truncated to an integer before it is
      compared: any threshold in (k-1, k] acts like k. *)
  Theorem C46_truncated th pts : 
    (cart_converged th pts = true <->
     forall i k, (i < length th)%nat -> 0 < nth i th 0 ->
       IZR k - 1 < nth i th 0 <= IZR k ->
       std (column 0 i (map pc pts)) < IZR k).
  Proof.
    unfold cart_converged. rewrite forallb_forall. split.
    - intros H i k Hi P B. specialize (H i). rewrite in_seq in H.
      specialize (H ltac:(lia)). apply orb_true_iff in H. destruct H as [H | H].
      + apply negb_true_iff in H. apply (proj1 (Rltb_false _ _)) in H. lra.
      + apply (proj1 (Rltb_true _ _)) in H.
        exact (proj1 (truncate_lt _ _ k (std_nonneg _) B) H).
    - intros H i Hi. apply in_seq in Hi. apply orb_true_iff.
      destruct (Rltb 0 (nth i th 0)) eqn:P; [right | left; reflexivity].
      apply (proj1 (Rltb_true _ _)) in P. apply (proj2 (Rltb_true _ _)).
      destruct (archimed (nth i th 0)) as (A1 & A2).
      set (t := nth i th 0) in *.
      destruct (Rle_dec t (IZR (up t) - 1)) as [L | L].
      + assert (T : t = IZR (up t) - 1) by lra.
        apply (proj2 (truncate_lt _ t (up t - 1) (std_nonneg _)
                 ltac:(rewrite minus_IZR; lra))).
        apply H; [lia | exact P | fold t; rewrite minus_IZR; lra].
      + apply (proj2 (truncate_lt _ t (up t) (std_nonneg _) ltac:(lra))).
        apply H; [lia | exact P | fold t; lra].
  Qed.

  (** Coordinates which all spread by less than one stop the search before
      its first iteration, whatever (positive) thresholds are given. *)
  Theorem C46_stops_at_once points th t c : (0 < ndim)%nat ->
    cartesian_positions ndim (g_spher g) c ->
    accepted g ndim (length points) ->
    (forall m, g_max_calls g = Some m -> m = 0%nat \/ (length points < m)%nat) ->
    g_fstd g <= std (map func points) ->
    g_cstd g = Some th -> In t th -> 0 < t ->
    (forall s, g_sstd g = Some s -> forall u, In u s -> u <= 0) ->
    (forall i, (i < length th)%nat ->
       std (map (fun x => nth (nth i c 0%nat) x 0) points) < 1) ->
    length th = length c ->
    exists o, spherical_opt g ndim points = Ok o /\ o_flag o = 3%Z /\
      o_nit o = 0%nat /\ o_xs o = points.
  Proof.
    intros D CP A HC HF HT It Pt HS SP LT. apply positions_cartesians in CP. subst c.
    rewrite opt_accepted by exact A.
    replace (g_max_iter g + 1)%nat with (S (g_max_iter g)) by lia. cbn [loop].
    assert (C : check g (init_state func g ndim points) = Ok (Some 3%Z)).
    { unfold check. cbn [init_state s_calls s_noimp s_f s_pts].
      assert (X : limit (g_max_calls g) (fun m => Nat.leb m (length points)) = false).
      { unfold limit. destruct (g_max_calls g) as [m |]; [| reflexivity].
        destruct (HC m eq_refl) as [-> | L]; [reflexivity |].
        rewrite (proj2 (Nat.leb_gt _ _) L). apply andb_false_r. }
      rewrite X.
      assert (Y : limit (g_max_noimp g) (fun m => Z.ltb (Z.of_nat m) (-1)) = false).
      { unfold limit. destruct (g_max_noimp g) as [m |]; [| reflexivity].
        destruct (Z.ltb_spec (Z.of_nat m) (-1)); [lia |]. apply andb_false_r. }
      rewrite Y, (proj2 (Rltb_false _ _)) by lra.
      assert (Z1 : active (g_cstd g) = Some th).
      { rewrite HT. unfold active.
        rewrite (proj2 (some_positive_true th)); [reflexivity |]. exists t. auto. }
      assert (Z2 : active (g_sstd g) = None).
      { destruct (g_sstd g) as [s |]; [| reflexivity]. unfold active.
        destruct (some_positive s) eqn:E; [| reflexivity].
        apply some_positive_true in E. destruct E as (u & Iu & Pu).
        specialize (HS s eq_refl u Iu). lra. }
      rewrite Z1, Z2. cbn [bind].
      rewrite (proj2 (C46_truncated th _)); [reflexivity |].
      intros i k Hi P B. apply Rlt_le_trans with 1.
      - unfold column. rewrite !map_map. cbn [pc split_point].
        erewrite map_ext; [apply (SP i Hi) |]. intros x.
        apply (nth_map_in (fun j => nth j x 0)). lia.
      - apply (IZR_le 1). assert (0 < k)%Z by (apply lt_IZR; lra). lia. }
    rewrite C. cbn [bind]. eexists. split; [reflexivity |]. repeat split.
  Qed.

  (** ** C77 *)

  (** Switching off some directions but not all of them makes the search fail
      unless it stops before its first iteration for another reason. *)
  Theorem C77_mixed_thresholds points th t u :
    accepted g ndim (length points) ->
    (forall m, g_max_calls g = Some m -> m = 0%nat \/ (length points < m)%nat) ->
    g_fstd g <= std (map func points) ->
    g_sstd g = Some th -> In t th -> 0 < t -> In u th -> u <= 0 ->
    spherical_opt g ndim points = Err UnboundLocalError.
  Proof.
    intros A HC HF HT It Pt Iu Pu. rewrite opt_accepted by exact A.
    replace (g_max_iter g + 1)%nat with (S (g_max_iter g)) by lia. cbn [loop].
    assert (C : check g (init_state func g ndim points) = Err UnboundLocalError).
    { unfold check. cbn [init_state s_calls s_noimp s_f s_pts s_i].
      assert (X : limit (g_max_calls g) (fun m => Nat.leb m (length points)) = false).
      { unfold limit. destruct (g_max_calls g) as [m |]; [| reflexivity].
        destruct (HC m eq_refl) as [-> | L]; [reflexivity |].
        rewrite (proj2 (Nat.leb_gt _ _) L). apply andb_false_r. }
      rewrite X.
      assert (Y : limit (g_max_noimp g) (fun m => Z.ltb (Z.of_nat m) (-1)) = false).
      { unfold limit. destruct (g_max_noimp g) as [m |]; [| reflexivity].
        destruct (Z.ltb_spec (Z.of_nat m) (-1)); [lia |]. apply andb_false_r. }
      rewrite Y, (proj2 (Rltb_false _ _)) by lra.
      assert (Z2 : active (g_sstd g) = Some th).
      { rewrite HT. unfold active.
        rewrite (proj2 (some_positive_true th)); [reflexivity |]. exists t. auto. }
      assert (LP : forall sd ns c, spher_loop th sd ns None c = Err UnboundLocalError).
      { intros sd ns. clear - Iu Pu. induction th as [| a l IH]; intros c; [contradiction |].
        simpl. destruct (Rltb 0 a) eqn:E; [| reflexivity].
        apply (proj1 (Rltb_true _ _)) in E. destruct Iu as [-> | Iu]; [lra | auto]. }
      rewrite Z2. destruct (active (g_cstd g)); rewrite LP; reflexivity. }
    rewrite C. reflexivity.
  Qed.

  (** ** C78 *)

  (** The number of calls exceeds its limit by less than the calls of one
      iteration. *)
  Theorem C78_call_limit points o m : numpy_sound argsort rnd g -> (0 < ndim)%nat ->
    spherical_opt g ndim points = Ok o ->
    g_max_calls g = Some m -> m <> 0%nat ->
    (o_calls o <= Nat.max (length points) (m - 1 + max_cost g (length points)))%nat.
  Proof.
    intros NS D E M Z. exact (gl_calls _ _ _ _ _ _ _ (run_good points o NS D E) m M Z).
  Qed.

  (** Without a limit, every iteration costs at most as much. *)
  Theorem C78_calls points o : numpy_sound argsort rnd g -> (0 < ndim)%nat ->
    spherical_opt g ndim points = Ok o ->
    (o_calls o <= length points + (g_max_iter g + 1) * max_cost g (length points))%nat.
  Proof.
    intros NS D E. exact (gl_total _ _ _ _ _ _ _ (run_good points o NS D E)).
  Qed.

  (** ** C79 *)

  (** The stopping flag tells why the search stopped. *)
  Theorem C79_flags points o : numpy_sound argsort rnd g -> (0 < ndim)%nat ->
    spherical_opt g ndim points = Ok o ->
    (o_flag o = (-1)%Z /\ o_nit o = g_max_iter g \/
     (0 <= o_flag o <= 3)%Z /\ (o_nit o <= g_max_iter g)%nat) /\
    (o_flag o = 0%Z -> exists m, g_max_calls g = Some m /\ (0 < m <= o_calls o)%nat) /\
    (o_flag o = 1%Z -> std (map func (o_xs o)) < g_fstd g).
  Proof.
    intros NS D E. pose proof (run_good points o NS D E) as G.
    split; [| split; [apply G |]].
    - destruct (gl_steps _ _ _ _ _ _ _ G) as [(A & B) | (A & B)]; [left | right]; lia.
    - intros H. rewrite <- (gl_vals _ _ _ _ _ _ _ G). apply G. exact H.
  Qed.

  (** Convergence of the coordinates: the (truncated) spreads of the returned
      points are below all positive thresholds. *)
  Theorem C79_converged points o th c i k : numpy_sound argsort rnd g ->
    (0 < ndim)%nat -> (forall p, In p points -> length p = ndim) ->
    spherical_opt g ndim points = Ok o -> o_flag o = 3%Z ->
    g_cstd g = Some th -> cartesian_positions ndim (g_spher g) c ->
    (i < length th)%nat -> (i < length c)%nat -> 0 < nth i th 0 <= IZR k ->
    std (map (fun x => nth (nth i c 0%nat) x 0) (o_xs o)) < IZR k.
  Proof.
    intros (NS & R) D LP E FL HT HC Hi Hi' (P & B).
    apply positions_cartesians in HC. subst c.
    pose proof (opt_ok _ _ _ _ _ _ _ E) as A.
    pose proof (accepted_fits g ndim _ A D) as F.
    assert (NE : points <> [])
      by (intros ->; destruct F as [(_ & F) | (_ & F & _)]; simpl in F; lia).
    rewrite opt_accepted in E by exact A.
    assert (PK : packed g ndim (init_state func g ndim points)).
    { unfold packed, init_state. cbn [s_x s_pts]. rewrite map_map.
      transitivity (map (fun x => x) points); [symmetry; apply map_id |].
      apply map_ext_in. intros x Hx. symmetry. apply create_split. auto. }
    destruct (loop_converged func argsort rnd g ndim NS R (length points) _ _ _ o
                (init_inv func g ndim points NE) F PK E FL) as (st & PS & EX & C).
    unfold check in C.
    destruct (limit (g_max_calls g) _); [discriminate |].
    destruct (limit (g_max_noimp g) _); [discriminate |].
    destruct (Rltb _ _); [discriminate |].
    assert (AC : active (g_cstd g) = Some th).
    { rewrite HT. unfold active. rewrite (proj2 (some_positive_true th));
        [reflexivity |]. exists (nth i th 0). split; [apply nth_In; exact Hi | exact P]. }
    rewrite AC in C. cbv iota in C.
    assert (CV : cart_converged th (s_pts st) = true).
    { apply bind_ok in C. destruct C as (cv & C1 & C2).
      destruct cv; [| discriminate].
      destruct (cart_converged th (s_pts st)) eqn:CC; [reflexivity | exfalso].
      destruct (active (g_sstd g)) as [s |]; [| discriminate].
      assert (SL : forall sd ns j b, spher_loop s sd ns j b = Ok true -> b = true).
      { intros sd ns j. clear. induction s as [| a s IH]; intros b H; simpl in H.
        - congruence.
        - destruct (Rltb 0 a); [apply IH in H; apply andb_prop in H; apply H |].
          destruct j as [j |]; [| discriminate].
          destruct (Nat.ltb j ns); [auto | discriminate]. }
      apply SL in C1. discriminate. }
    rewrite EX, PS, map_map.
    assert (ST : std (column 0 i (map pc (s_pts st))) < IZR k).
    { destruct (archimed (nth i th 0)) as (A1 & A2). set (t := nth i th 0) in *.
      destruct (Rle_dec t (IZR (up t) - 1)) as [L | L].
      - pose proof (proj1 (C46_truncated th (s_pts st)) CV i (up t - 1)%Z Hi P
                      ltac:(rewrite minus_IZR; fold t; lra)) as H.
        rewrite minus_IZR in H. fold t in B. lra.
      - pose proof (proj1 (C46_truncated th (s_pts st)) CV i (up t) Hi P
                      ltac:(fold t; lra)) as H.
        assert (U : (up t <= k)%Z).
        { assert (up t - 1 < k)%Z; [| lia]. apply lt_IZR. rewrite minus_IZR. lra. }
        apply IZR_le in U. lra. }
    unfold column in ST. rewrite map_map in ST.
    erewrite map_ext; [exact ST |]. intros p. apply create_cartesian. exact Hi'.
  Qed.
End Opt.

(** ** C80 *)

(** Splitting a point into coordinates and directions and putting it together
    again changes nothing. *)
Theorem C80_round_trip ndim sph x : length x = ndim ->
  create_x ndim sph (split_point ndim sph x) = x.
Proof. apply create_split. Qed.

(** ** Refutations and examples *)

(** Nelder-Mead in one dimension with the objective [x]. *)
Definition line (x : list R) : R := hd 0 x.

Definition no_draws : nat -> draws := fun _ => mk_draws [] [] [].

Definition simple (m : method) (iters : nat) (fstd : R) (c : option (list R)) : config :=
  mk_config m [] 0 iters None None fstd c None.

Lemma simple_sound m iters fstd c : numpy_sound isort no_draws (simple m iters fstd c).
Proof. split; [exact isort_ok | reflexivity]. Qed.

Lemma isort_01 : isort [0; 1] = [0%nat; 1%nat].
Proof.
  unfold isort. cbn [length seq fold_right insert_idx nth].
  rewrite (proj2 (Rleb_true 0 1)) by lra. reflexivity.
Qed.

Lemma refl_1d a c : reflect_pt (mk_pt [a] []) (mk_pt [c] []) = mk_pt [2 * c - a] [].
Proof. reflexivity. Qed.

Lemma cent_1d a : centroid [mk_pt [a] []] = mk_pt [a] [].
Proof.
  unfold centroid, Rmean, Rlen. cbn. f_equal. f_equal. lra.
Qed.

Lemma make_1d f it c a :
  make (simple f it c None) 1 (mk_pt [a] []) = [a].
Proof. reflexivity. Qed.

Lemma line_run : exists o,
  spherical_opt line isort no_draws (simple NelderMead 0 0 None) 1 [[0]; [1]] = Ok o /\
  o_fun o = 0 /\ o_fvals o = [0; 2 * (2 * 0 - 1) - 0] /\ o_flag o = (-1)%Z.
Proof.
  rewrite opt_accepted
    by (split; [left; repeat split; simpl; lia | split; discriminate]).
  set (g := simple NelderMead 0 0 None). change (g_max_iter g + 1)%nat with 1%nat.
  cbn [loop]. unfold check. cbn [g_max_calls g_max_noimp limit g_fstd g simple].
  rewrite (proj2 (Rltb_false _ _)) by apply sqrt_pos.
  cbn [g_cstd g_sstd active bind g simple].
  unfold step, note_best. cbn [g_method g simple].
  change (s_f (init_state line g 1 [[0]; [1]])) with [0; 1].
  rewrite isort_01. cbn [hd nth]. cbv zeta.
  set (st := if Rltb 0 _ then _ else _).
  assert (SP : s_pts st = [mk_pt [0] []; mk_pt [1] []])
    by (unfold st; destruct (Rltb _ _); reflexivity).
  assert (SF : s_f st = [0; 1]) by (unfold st; destruct (Rltb _ _); reflexivity).
  assert (SX : s_x st = [[0]; [1]]) by (unfold st; destruct (Rltb _ _); reflexivity).
  assert (SB : s_bi st = 0%nat) by (unfold st; destruct (Rltb _ _); reflexivity).
  clearbody st. unfold step_nm. cbv zeta. rewrite SP, SF, SB.
  cbn [last nth length removelast Nat.sub map]. rewrite cent_1d, !refl_1d.
  unfold g. rewrite !make_1d. cbn [line hd].
  rewrite (proj2 (Rleb_false 0 (2 * 0 - 1))) by lra. rewrite andb_false_r.
  rewrite (proj2 (Rltb_true (2 * 0 - 1) 0)) by lra.
  rewrite (proj2 (Rltb_true (2 * (2 * 0 - 1) - 0) (2 * 0 - 1))) by lra.
  cbn [bind]. eexists. split; [reflexivity |].
  unfold finish, put. cbn [o_fun o_fvals o_flag s_f s_bi s_x].
  rewrite SB, SF, make_1d. cbn [set_nth nth line hd]. repeat split.
Qed.

(** The reported value need not be the least of the returned values. *)
Theorem C43_reported_refuted : exists func argsort rnd g points o v,
  numpy_sound argsort rnd g /\ spherical_opt func argsort rnd g 1 points = Ok o /\
  In v (o_fvals o) /\ v < o_fun o.
Proof.
  destruct line_run as (o & E & F & V & _).
  exists line, isort, no_draws, (simple NelderMead 0 0 None), [[0]; [1]], o,
    (2 * (2 * 0 - 1) - 0).
  split; [apply simple_sound |]. split; [exact E |]. rewrite F, V.
  split; [right; left; reflexivity | lra].
Qed.

(** If the first check stops the search, an initial point may be better than
    the reported one. *)
Theorem C43_initial_refuted : exists func argsort rnd g points o p,
  numpy_sound argsort rnd g /\ spherical_opt func argsort rnd g 1 points = Ok o /\
  In p points /\ func p < o_fun o /\ (0 < o_flag o)%Z.
Proof.
  set (g := simple NelderMead 0 1 None).
  assert (E : spherical_opt line isort no_draws g 1 [[1]; [0]] =
              Ok (finish 1 0 (init_state line g 1 [[1]; [0]]))).
  { rewrite opt_accepted
      by (split; [left; repeat split; simpl; lia | split; discriminate]).
    change (g_max_iter g + 1)%nat with 1%nat. cbn [loop]. unfold check.
    cbn [g_max_calls g_max_noimp limit g_fstd g simple].
    rewrite (proj2 (Rltb_true _ _)); [reflexivity |].
    change (s_f (init_state line g 1 [[1]; [0]])) with [1; 0].
    unfold std. replace (Rmean (map (fun v => (v - Rmean [1; 0]) ^ 2) [1; 0]))
      with ((1 / 2) ^ 2) by (unfold Rmean, Rlen; cbn; lra).
    rewrite sqrt_pow2; lra. }
  exists line, isort, no_draws, g, [[1]; [0]], (finish 1 0 (init_state line g 1 [[1]; [0]])), [0].
  split; [apply simple_sound |]. split; [exact E |].
  split; [right; left; reflexivity |].
  unfold finish, init_state. cbn [o_fun o_flag s_bi s_f map nth line hd].
  split; [lra | lia].
Qed.

(** Coordinates spread by a half although the threshold is a tenth. *)
Theorem C46_refuted : exists func argsort rnd g points o th,
  numpy_sound argsort rnd g /\ spherical_opt func argsort rnd g 1 points = Ok o /\
  o_flag o = 3%Z /\ g_cstd g = Some [th] /\ 0 < th /\
  th < std (map (fun x => nth 0 x 0) (o_xs o)).
Proof.
  set (g := simple NelderMead 0 0 (Some [1 / 10])).
  assert (SD : std [0; 1] = 1 / 2).
  { unfold std. replace (Rmean (map (fun v => (v - Rmean [0; 1]) ^ 2) [0; 1]))
      with ((1 / 2) ^ 2) by (unfold Rmean, Rlen; cbn; lra).
    apply sqrt_pow2. lra. }
  assert (A : accepted g 1 2).
  { split; [left; repeat split; simpl; lia |].
    split; [intros th H; injection H as <-; reflexivity | discriminate]. }
  destruct (C46_stops_at_once line isort no_draws g 1 [[0]; [1]] [1 / 10] (1 / 10) [0%nat])
    as (o & E & F & _ & X); auto; try lia; try discriminate.
  - split; [repeat constructor |]. intros i. split.
    + intros [<- | []]. split; [lia | intros p []].
    + intros (L & _). left. lia.
  - change (map line [[0]; [1]]) with [0; 1]. rewrite SD. cbn. lra.
  - left. reflexivity.
  - lra.
  - intros i Hi. assert (i = 0%nat) as -> by (simpl in Hi; lia). cbn [map nth].
    rewrite SD. lra.
  - exists line, isort, no_draws, g, [[0]; [1]], o, (1 / 10).
    split; [apply simple_sound |]. split; [exact E |]. split; [exact F |].
    split; [reflexivity |]. split; [lra |]. rewrite X. cbn [map nth]. rewrite SD. lra.
Qed.

(** A run which meets the hypotheses of the theorems about returned points. *)
Example run_exists : exists o,
  numpy_sound isort no_draws (simple NelderMead 0 0 None) /\
  spherical_opt line isort no_draws (simple NelderMead 0 0 None) 1 [[0]; [1]] = Ok o /\
  o_flag o = (-1)%Z.
Proof.
  destruct line_run as (o & E & _ & _ & F). exists o.
  split; [apply simple_sound |]. auto.
Qed.

(** Two directions of which one is switched off. *)
Example mixed_fails :
  let g := mk_config NelderMead [(0, 1); (2, 3)]%nat 1 5 (Some 100%nat) None 0 None
             (Some [1; -1]) in
  spherical_opt line isort no_draws g 4
    [[1; 2; 3; 4]; [2; 1; 1; 1]; [0; 0; 1; 2]; [1; 1; 2; 2]; [0; 1; 0; 1]] =
  Err UnboundLocalError.
Proof.
  cbv zeta. apply (C77_mixed_thresholds line isort no_draws _ 4 _ [1; -1] 1 (-1)).
  - split; [left; repeat split; simpl; lia |].
    split; [discriminate |]. intros th H. injection H as <-. reflexivity.
  - intros m H. injection H as <-. right. simpl. lia.
  - apply sqrt_pos.
  - reflexivity.
  - left. reflexivity.
  - lra.
  - right. left. reflexivity.
  - lra.
Qed.

(** The method CRS2 with two new points in every iteration. *)
Example crs_exists :
  let g := mk_config CRS2 [] 2 5 (Some 20%nat) None 0 None None in
  let rnd := fun _ : nat => mk_draws [[0%nat]; [1%nat]] [[1 / 2]; [1 / 2]] [[]; []] in
  numpy_sound isort rnd g /\ exists o,
    spherical_opt line isort rnd g 1 [[3]; [1]; [2]; [4]; [7]; [6]] = Ok o.
Proof.
  cbv zeta. assert (NS : numpy_sound isort
    (fun _ : nat => mk_draws [[0%nat]; [1%nat]] [[1 / 2]; [1 / 2]] [[]; []])
    (mk_config CRS2 [] 2 5 (Some 20%nat) None 0 None None))
    by (split; [exact isort_ok | reflexivity]).
  split; [exact NS |]. apply (C43_returns line isort _ _ 1); [exact NS | lia | exact I |].
  split; [right; repeat split; simpl; lia | split; discriminate].
Qed.

Example round_trip_case :
  create_x 3 [(2, 0)%nat] (split_point 3 [(2, 0)%nat] [1; 5; 2]) = [1; 5; 2].
Proof. apply C80_round_trip. reflexivity. Qed.

Print Assumptions C43_values.
Print Assumptions C43_never_worse.
Print Assumptions C43_reported.
Print Assumptions C43_stopped_at_once.
Print Assumptions C43_more_iterations.
Print Assumptions C43_returns.
Print Assumptions C43_reported_refuted.
Print Assumptions C43_initial_refuted.
Print Assumptions C46_truncated.
Print Assumptions C46_stops_at_once.
Print Assumptions C46_refuted.
Print Assumptions C77_mixed_thresholds.
Print Assumptions C78_call_limit.
Print Assumptions C78_calls.
Print Assumptions C79_flags.
Print Assumptions C79_converged.
Print Assumptions C80_round_trip.
