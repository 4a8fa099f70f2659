(** Lemmas about single iterations of the optimiser. *)
From Coq Require Import Psatz Sorting.Sorted Sorting.Permutation.
From Verif Require Import Py PyFacts RList M_Sphere S_Sphere L_Sphere T_Sphere M_Opt S_Opt L_Opt S_Simplex.

(** ** Points *)

Definition shaped (w v : nat) (p : pt) : Prop :=
  length (pc p) = w /\ length (ps p) = v /\ Forall coherent (ps p).

Lemma shaped_dir w v p k : shaped w v p -> (k < v)%nat -> coherent (nth k (ps p) spher_zero).
Proof.
  intros (_ & L & C) H. rewrite Forall_forall in C. apply C, nth_In. lia.
Qed.

Lemma coord_beyond p j : (length (pc p) <= j)%nat -> coord p j = 0.
Proof. intros H. unfold coord. apply nth_overflow. exact H. Qed.

Lemma nth_map_seq {A} (f : nat -> A) n k d : (k < n)%nat -> nth k (map f (seq 0 n)) d = f k.
Proof.
  intros H. rewrite (nth_indep _ d (f 0%nat)) by (rewrite map_length, seq_length; exact H).
  rewrite map_nth, seq_nth by exact H. reflexivity.
Qed.

Lemma vsum_xyz (l : list spher) : vsum (map xyz l) = (Rsum (map sx l), Rsum (map sy l), Rsum (map sz l)).
Proof.
  induction l as [|s l IH]; [reflexivity|]. cbn [map vsum fold_right]. fold (vsum (map xyz l)). rewrite IH, !Rsum_cons. reflexivity.
Qed.

Lemma vsum_perm l l' : Permutation l l' -> vsum l = vsum l'.
Proof.
  induction 1 as [|x l l' H IH|x y l|l1 l2 l3 H1 IH1 H2 IH2]; [reflexivity| | |congruence].
  - cbn [vsum fold_right]. fold (vsum l) (vsum l'). rewrite IH. reflexivity.
  - cbn [vsum fold_right]. fold (vsum l). destruct x as ((x1, x2), x3), y as ((y1, y2), y3), (vsum l) as ((z1, z2), z3). cbn.
    f_equal; [f_equal|]; ring.
Qed.

Lemma Rsum_perm l l' : Permutation l l' -> Rsum l = Rsum l'.
Proof.
  induction 1 as [|x l l' H IH|x y l|l1 l2 l3 H1 IH1 H2 IH2]; [reflexivity| | |congruence]; rewrite ?Rsum_cons; lra.
Qed.

Lemma center_perm l l' c : Permutation l l' -> is_center l c -> is_center l' c.
Proof.
  intros P [A B]. split.
  - intros j. rewrite <- (Permutation_length P), A. apply Rsum_perm. apply Permutation_map. exact P.
  - intros k Hk. rewrite <- (vsum_perm _ _ (Permutation_map (fun p => dirn p k) P)). apply B. exact Hk.
Qed.

Lemma Rsum_zeros {A} (f : A -> R) l : (forall x, In x l -> f x = 0) -> Rsum (map f l) = 0.
Proof.
  induction l as [|a l IH]; intros H; [reflexivity|]. cbn [map]. rewrite Rsum_cons, H by (left; reflexivity).
  rewrite IH; [ring|]. intros x Hx. apply H. right. exact Hx.
Qed.

Lemma centroid_ok w v l : l <> [] -> Forall (shaped w v) l ->
  is_center l (centroid l) /\ shaped w v (centroid l).
Proof.
  intros NE SH. destruct l as [|p0 l0] eqn:EL; [congruence|]. rewrite <- EL in *.
  assert (LP : 0 < INR (length l)) by (apply lt_0_INR; subst l; cbn; lia).
  assert (S0 : shaped w v p0) by (rewrite Forall_forall in SH; apply SH; subst l; left; reflexivity).
  assert (EC : centroid l = mk_pt (map (fun k => Rmean (column 0 k (map pc l))) (seq 0 w))
                (map (fun k => centroid_spher (column spher_zero k (map ps l))) (seq 0 v))).
  { unfold centroid. subst l. destruct S0 as (-> & -> & _). reflexivity. }
  split.
  - split.
    + intros j. rewrite EC. unfold coord at 1. cbn [pc]. destruct (Nat.lt_ge_cases j w) as [H|H].
      * rewrite nth_map_seq by exact H. unfold Rmean, Rlen, column. rewrite !map_map, !map_length.
        change (fun x => nth j (pc x) 0) with (fun p => coord p j). field. lra.
      * rewrite nth_overflow by (rewrite map_length, seq_length; exact H). rewrite Rsum_zeros; [ring|].
        intros p Hp. rewrite Forall_forall in SH. apply coord_beyond. destruct (SH p Hp) as (-> & _). exact H.
    + intros k Hk. rewrite EC in *. cbn [ps] in *. rewrite map_length, seq_length in Hk. rewrite nth_map_seq by exact Hk.
      set (col := column spher_zero k (map ps l)).
      replace (vsum (map (fun p => dirn p k) l)) with (vsum (map xyz col)).
      2:{ unfold col, column. rewrite !map_map. reflexivity. }
      rewrite vsum_xyz. unfold centroid_spher. set (s := with_xyz _ _ _).
      assert (LC : length col = length l) by (unfold col, column; rewrite !map_length; reflexivity).
      split; [apply cart_coherent|]. intros NZ.
      assert (E3 : (Rsum (map sx col), Rsum (map sy col), Rsum (map sz col)) = scale (INR (length l)) (xyz s)).
      { unfold s, xyz, scale, with_xyz, Rmean, Rlen. cbn [sx sy sz]. rewrite !map_length, LC.
        f_equal; [f_equal|]; field; lra. }
      destruct (cart_direction s) as (r & Hr & E).
      { intros Z. apply NZ. rewrite E3, Z. unfold scale. f_equal; [f_equal|]; ring. }
      exists (INR (length l) * r). split; [apply Rmult_lt_0_compat; assumption|]. rewrite E3, E.
      destruct (xyz (fill_from_cart s)) as ((a, b), c). unfold scale. f_equal; [f_equal|]; ring.
  - rewrite EC. split; [|split].
    + cbn. rewrite map_length, seq_length. reflexivity.
    + cbn. rewrite map_length, seq_length. reflexivity.
    + cbn [ps]. apply Forall_forall. intros s Hs. apply in_map_iff in Hs. destruct Hs as (k & <- & _). apply cart_coherent.
Qed.

Lemma nth_zipw {A B C} (f : A -> B -> C) a b k da db dc : (k < length a)%nat -> (k < length b)%nat ->
  nth k (zipw f a b) dc = f (nth k a da) (nth k b db).
Proof.
  intros HA HB. unfold zipw. rewrite (nth_indep _ dc ((fun ab => f (fst ab) (snd ab)) (da, db))).
  2:{ rewrite map_length, combine_length. lia. }
  rewrite (map_nth (fun ab => f (fst ab) (snd ab))).
  assert (E : nth k (combine a b) (da, db) = (nth k a da, nth k b db)).
  { clear dc. revert b k HA HB. induction a as [|x a IH]; intros [|y b] k HA HB; cbn in *; try lia.
    destruct k as [|k]; [reflexivity|]. apply IH; lia. }
  rewrite E. reflexivity.
Qed.

Lemma zipw_len {A B C} (f : A -> B -> C) a b : length (zipw f a b) = Nat.min (length a) (length b).
Proof. unfold zipw. rewrite map_length. apply combine_length. Qed.

Lemma image_ok w v p c : shaped w v p -> shaped w v c ->
  is_image p c (reflect_pt p c) /\ shaped w v (reflect_pt p c).
Proof.
  intros SP SC. pose proof SP as (P1 & P2 & P3). pose proof SC as (C1 & C2 & C3).
  assert (LV : length (zipw reflect (ps p) (ps c)) = v) by (rewrite zipw_len; lia).
  assert (D : forall k, (k < v)%nat -> nth k (zipw reflect (ps p) (ps c)) spher_zero =
            reflect (nth k (ps p) spher_zero) (nth k (ps c) spher_zero)) by (intros k Hk; apply nth_zipw; lia).
  split; [split|].
  - intros j. unfold coord, reflect_pt. cbn [pc]. destruct (Nat.lt_ge_cases j w) as [H|H].
    + rewrite (nth_zipw _ _ _ _ 0 0) by lia. reflexivity.
    + rewrite !nth_overflow by (try rewrite zipw_len; lia). ring.
  - intros k Hk. unfold reflect_pt in *. cbn [ps] in *. rewrite LV in Hk.
    destruct (C45_reflection (nth k (ps p) spher_zero) (nth k (ps c) spher_zero)) as (E & CO & _).
    + apply coherent_unit. apply (shaped_dir w v p k SP Hk).
    + apply (shaped_dir w v c k SC Hk).
    + unfold dirn. cbn [ps]. rewrite D by exact Hk. split; [exact CO|exact E].
  - split; [cbn; rewrite zipw_len; lia|]. split; [exact LV|]. cbn [reflect_pt ps]. apply Forall_forall. intros s Hs.
    apply In_nth with (d := spher_zero) in Hs. destruct Hs as (k & Hk & <-). rewrite LV in Hk. rewrite D by exact Hk.
    unfold reflect. destruct (reflect_xyz _ _) as ((x, y), z). apply cart_coherent.
Qed.

Lemma mutation_ok w v p b wc ws : shaped w v p -> shaped w v b -> length wc = w -> length ws = v ->
  is_mutation p b wc ws (mutate_pt p b wc ws) /\ shaped w v (mutate_pt p b wc ws).
Proof.
  intros SP SB LW LS. pose proof SP as (P1 & P2 & P3). pose proof SB as (C1 & C2 & C3).
  set (m := mutate_pt p b wc ws).
  assert (LM : length (ps m) = v) by (unfold m, mutate_pt; cbn [ps]; rewrite zipw_len, combine_length; lia).
  assert (LC : length (pc m) = w) by (unfold m, mutate_pt; cbn [pc]; rewrite zipw_len, combine_length; lia).
  assert (CN : forall {A} (x y : list A) k d, length x = length y -> nth k (combine x y) (d, d) = (nth k x d, nth k y d)).
  { intros A x y k d L. apply combine_nth. exact L. }
  assert (D : forall k, (k < v)%nat -> exists w0 w1 w2, nth k ws (0, 0, 0) = (w0, w1, w2) /\
     nth k (ps m) spher_zero =
       let best := nth k (ps b) spher_zero in let help := reflect (nth k (ps p) spher_zero) best in
       fill_from_cart (with_xyz ((1 - w0) * sx best + w0 * sx help) ((1 - w1) * sy best + w1 * sy help)
         ((1 - w2) * sz best + w2 * sz help))).
  { intros k Hk. destruct (nth k ws (0, 0, 0)) as ((w0, w1), w2) eqn:EW. exists w0, w1, w2. split; [reflexivity|].
    unfold m, mutate_pt. cbn [ps]. rewrite (nth_zipw _ _ _ _ (0, 0, 0) (spher_zero, spher_zero)) by (rewrite ?combine_length; lia).
    rewrite EW, CN by lia. reflexivity. }
  split; [split|].
  - intros j. unfold coord, m, mutate_pt. cbn [pc]. destruct (Nat.lt_ge_cases j w) as [H|H].
    + rewrite (nth_zipw _ _ _ _ 0 (0, 0)) by (rewrite ?combine_length; lia). rewrite CN by lia. cbn [fst snd]. ring.
    + rewrite !nth_overflow by (try rewrite zipw_len; try rewrite combine_length; lia). ring.
  - intros k Hk. rewrite LM in Hk. destruct (D k Hk) as (w0 & w1 & w2 & -> & ->).
    destruct (C45_reflection (nth k (ps p) spher_zero) (nth k (ps b) spher_zero)) as (E & CO & _).
    + apply coherent_unit. apply (shaped_dir w v p k SP Hk).
    + apply (shaped_dir w v b k SB Hk).
    + cbv zeta. unfold dirn. rewrite <- E. set (h := reflect _ _). unfold xyz at 1 2. set (s := with_xyz _ _ _).
      split; [apply cart_coherent|]. intros NZ. apply (cart_direction s). exact NZ.
  - split; [exact LC|]. split; [exact LM|]. apply Forall_forall. intros s Hs. apply In_nth with (d := spher_zero) in Hs.
    destruct Hs as (k & Hk & <-). rewrite LM in Hk. destruct (D k Hk) as (w0 & w1 & w2 & _ & ->). apply cart_coherent.
Qed.

(** ** Lists *)

Lemma without_perm {A} i (l : list A) d : (i < length l)%nat -> Permutation l (nth i l d :: without i l).
Proof.
  intros H. unfold without. rewrite <- (firstn_skipn i l) at 1.
  assert (E : skipn i l = nth i l d :: skipn (S i) l).
  { clear - H. revert i H. induction l as [|a l IH]; intros [|i] H; cbn in *; try lia; [reflexivity|]. apply IH. lia. }
  rewrite E. symmetry. apply Permutation_middle.
Qed.

Lemma map_nth_seq {A} (l : list A) d : map (fun i => nth i l d) (seq 0 (length l)) = l.
Proof.
  apply (nth_ext _ _ d d); [rewrite map_length, seq_length; reflexivity|]. intros i Hi. rewrite map_length, seq_length in Hi.
  rewrite (nth_map_seq (fun i => nth i l d)) by exact Hi. reflexivity.
Qed.

Lemma argsort_perm vals idx : is_argsort vals idx -> Permutation idx (seq 0 (length vals)).
Proof.
  intros A. pose proof (argsort_all vals idx A) as ALL. destruct A as ((N & R & S) & L).
  apply NoDup_Permutation_bis; [exact N|rewrite seq_length; lia|]. intros i Hi. apply in_seq. specialize (R i Hi). lia.
Qed.

Lemma argsort_without (l : list pt) vals idx : is_argsort vals idx -> length vals = length l -> l <> [] ->
  Permutation (map (fun i => nth i l pt_zero) (removelast idx)) (without (last idx 0%nat) l).
Proof.
  intros A L NE. pose proof (argsort_perm _ _ A) as P. rewrite L in P.
  assert (NI : idx <> []) by (intros ->; apply Permutation_nil in P; destruct l; [congruence|discriminate]).
  assert (E : idx = removelast idx ++ [last idx 0%nat]) by (apply app_removelast_last; exact NI).
  apply (Permutation_cons_inv (a := nth (last idx 0%nat) l pt_zero)).
  assert (W : (last idx 0 < length l)%nat).
  { assert (I : In (last idx 0%nat) idx) by (rewrite E at 2; apply in_or_app; right; left; reflexivity).
    apply (Permutation_in _ P) in I. apply in_seq in I. lia. }
  apply perm_trans with l; [|apply without_perm; exact W].
  apply perm_trans with (map (fun i => nth i l pt_zero) idx).
  - rewrite E at 3. rewrite map_app. cbn [map]. apply Permutation_cons_append.
  - apply perm_trans with (map (fun i => nth i l pt_zero) (seq 0 (length l))); [apply Permutation_map; exact P|].
    rewrite map_nth_seq. apply Permutation_refl.
Qed.

Lemma nth_first {A} n (l : list A) k d : (k < n)%nat -> nth k (firstn n l) d = nth k l d.
Proof.
  revert n k. induction l as [|a l IH]; intros [|n] k H; try lia; [destruct k; reflexivity|]. destruct k as [|k]; [reflexivity|].
  cbn. apply IH. lia.
Qed.

Lemma nth_without {A} i (l : list A) k d : (i < length l)%nat -> nth k (without i l) d = nth (shift_index i k) l d.
Proof.
  intros H. unfold without, shift_index. destruct (Nat.leb_spec i k) as [L|L].
  - rewrite app_nth2; rewrite firstn_length_le by lia; [|lia]. rewrite nth_skipn'. f_equal. lia.
  - rewrite app_nth1 by (rewrite firstn_length_le; lia). apply nth_first. exact L.
Qed.

Lemma Forall_nth_ok {A} (P : A -> Prop) l i d : Forall P l -> (i < length l)%nat -> P (nth i l d).
Proof. intros F H. rewrite Forall_forall in F. apply F, nth_In. exact H. Qed.

Lemma Forall_two {A} (P : A -> Prop) a b : P a -> P b -> Forall P [a; b].
Proof. intros. repeat (apply Forall_cons; [assumption|]). apply Forall_nil. Qed.

Lemma set_nth_Forall {A} (P : A -> Prop) i x l : P x -> Forall P l -> Forall P (set_nth i x l).
Proof.
  intros X F. revert i. induction F as [|a l HA F IH]; intros [|i]; cbn; constructor; auto.
Qed.

Lemma set_nth_replaced l w p : (w < length l)%nat -> replaced l w p (set_nth w p l).
Proof.
  intros H. split; [apply set_nth_length|]. split.
  - rewrite nth_set_nth by exact H. rewrite Nat.eqb_refl. reflexivity.
  - intros i NE. rewrite nth_set_nth by exact H. destruct (Nat.eqb_spec i w); [congruence|reflexivity].
Qed.

(** ** Iterations *)

Section Steps.
  Variable func : list R -> R.
  Variable argsort : list R -> list nat.
  Variable g : config.
  Variable ndim : nat.
  Variables (w v : nat).
  Hypothesis Hsort : forall l, is_argsort l (argsort l).

  Notation make := (make g ndim).
  Notation F := (fun p => func (create_x ndim (g_spher g) p)).

  Definition good (n : nat) (st : state) : Prop :=
    length (s_pts st) = n /\ Forall (shaped w v) (s_pts st) /\
    s_f st = map F (s_pts st) /\ s_x st = map make (s_pts st).

  Lemma good_nth n st i : good n st -> (i < n)%nat ->
    nth i (s_f st) 0 = F (nth i (s_pts st) pt_zero) /\ shaped w v (nth i (s_pts st) pt_zero).
  Proof.
    intros (L & S & E & _) H. split.
    - rewrite E. rewrite (nth_indep _ 0 (F pt_zero)) by (rewrite map_length; lia). apply (map_nth F).
    - apply Forall_nth_ok; [exact S|lia].
  Qed.

  Lemma put_good n i p st calls : good n st -> shaped w v p -> good n (put func g ndim i p st calls).
  Proof.
    intros (L & S & E & X) P. unfold put, good. cbn [s_pts s_f s_x]. split; [rewrite set_nth_length; exact L|].
    split; [apply set_nth_Forall; assumption|]. split; [rewrite E; apply (set_nth_map F)|rewrite X; apply (set_nth_map make)].
  Qed.

  Lemma shrink_pts n best l : NoDup l -> (best < n)%nat -> (forall i, In i l -> (i < n)%nat) -> forall st, good n st ->
    let st' := fold_left (shrink_one func g ndim best) l st in
    good n st' /\ nth best (s_pts st') pt_zero = nth best (s_pts st) pt_zero /\
    (forall i, ~ In i l -> nth i (s_pts st') pt_zero = nth i (s_pts st) pt_zero) /\
    (forall i, In i l -> i <> best ->
       nth i (s_pts st') pt_zero = centroid [nth best (s_pts st) pt_zero; nth i (s_pts st) pt_zero]).
  Proof.
    intros ND HB HL. induction ND as [|a l NI ND IH]; intros st G; cbn [fold_left].
    - split; [exact G|]. split; [reflexivity|]. split; [reflexivity|]. intros i [].
    - assert (HA : (a < n)%nat) by (apply HL; left; reflexivity).
      assert (HL' : forall i, In i l -> (i < n)%nat) by (intros i Hi; apply HL; right; exact Hi).
      specialize (IH HL'). unfold shrink_one at 2 4 6 8. destruct (Nat.eqb_spec a best) as [->|NE].
      + destruct (IH st G) as (A & B & C & D). split; [exact A|]. split; [exact B|]. split.
        * intros i Hi. apply C. intros H. apply Hi. right. exact H.
        * intros i [<-|Hi] N; [congruence|]. apply D; assumption.
      + set (p := centroid _). set (st1 := put _ _ _ _ _ _ _).
        assert (SP : shaped w v p).
        { apply centroid_ok; [discriminate|]. apply Forall_two; apply (good_nth n); assumption. }
        assert (G1 : good n st1) by (apply put_good; assumption).
        assert (P1 : forall i, nth i (s_pts st1) pt_zero = if Nat.eqb i a then p else nth i (s_pts st) pt_zero).
        { intros i. unfold st1, put. cbn [s_pts]. apply nth_set_nth. destruct G as (-> & _). exact HA. }
        destruct (IH st1 G1) as (A & B & C & D). split; [exact A|].
        assert (EB : nth best (s_pts st1) pt_zero = nth best (s_pts st) pt_zero).
        { rewrite P1. destruct (Nat.eqb_spec best a); [congruence|reflexivity]. }
        split; [rewrite B; exact EB|]. split.
        * intros i Hi. rewrite C by (intros H; apply Hi; right; exact H). rewrite P1.
          destruct (Nat.eqb_spec i a) as [->|]; [exfalso; apply Hi; left; reflexivity|reflexivity].
        * intros i [<-|Hi] N.
          -- rewrite C by exact NI. rewrite P1, Nat.eqb_refl. reflexivity.
          -- rewrite D by assumption. rewrite EB, P1. destruct (Nat.eqb_spec i a) as [->|]; [contradiction|reflexivity].
  Qed.

  Lemma step_nm_next n st : good n st -> (2 <= n)%nat -> s_bi st = hd 0%nat (argsort (s_f st)) ->
    let st' := step_nm func g ndim (argsort (s_f st)) st in
    nm_next F (s_pts st) (s_pts st') /\ good n st'.
  Proof.
    intros G N2 BI. pose proof G as (GL & GS & GF & GX).
    assert (LF : length (s_f st) = n) by (rewrite GF, map_length; exact GL).
    assert (NE : s_f st <> []) by (intros E; rewrite E in LF; cbn in LF; lia).
    pose proof (Hsort (s_f st)) as AS.
    destruct (argsort_head_min (s_f st) _ AS NE) as (HB1 & HB2).
    destruct (argsort_worst (s_f st) _ AS ltac:(lia)) as (HW1 & HW2).
    rewrite <- BI in HB1, HB2, HW2. set (so := argsort (s_f st)) in *.
    assert (LS : length so = n) by (destruct AS as (_ & ->); exact LF).
    set (wi := last so 0%nat) in *. set (si := nth (n - 2) so 0%nat).
    assert (WN : wi = nth (n - 1) so 0%nat) by (unfold wi; rewrite last_nth, LS; reflexivity).
    assert (SB : sorted_by (s_f st) so) by apply AS.
    assert (POS : forall i, (i < n)%nat -> exists m, (m < n)%nat /\ nth m so 0%nat = i).
    { intros i Hi. pose proof (argsort_all _ _ AS i ltac:(lia)) as I. apply In_nth with (d := 0%nat) in I.
      destruct I as (m & Hm & E). exists m. split; [lia|exact E]. }
    assert (SI : (si < n)%nat /\ si <> wi).
    { destruct SB as (ND & RG & _). split.
      - rewrite <- LF. apply RG. apply nth_In. lia.
      - unfold si. rewrite WN. intros E. apply NoDup_nth in E; [lia|exact ND|lia|lia]. }
    destruct SI as (SI1 & SI2).
    assert (V : forall i, (i < n)%nat -> nth i (s_f st) 0 = F (pnth i (s_pts st))) by (intros i Hi; apply (good_nth n); assumption).
    assert (LOW : lowest F (s_pts st) (s_bi st)).
    { split; [lia|]. intros i Hi. rewrite GL in Hi. rewrite <- !V by lia. apply HB2. apply nth_In. lia. }
    assert (HIGH : highest F (s_pts st) wi).
    { split; [lia|]. intros i Hi. rewrite GL in Hi. rewrite <- !V by lia. destruct (POS i Hi) as (m & Hm & <-). rewrite WN.
      apply sorted_by_le; [exact SB|lia]. }
    assert (SEC : second_highest F (s_pts st) wi si).
    { split; [lia|]. split; [exact SI2|]. intros i Hi NW. rewrite GL in Hi. rewrite <- !V by lia. destruct (POS i Hi) as (m & Hm & <-).
      unfold si. apply sorted_by_le; [exact SB|]. assert (m <> n - 1)%nat by (intros ->; apply NW; symmetry; exact WN). lia. }
    unfold step_nm. cbv zeta. fold wi. replace (length so - 2)%nat with (n - 2)%nat by lia. fold si.
    set (chosen := map (fun i => nth i (s_pts st) pt_zero) (removelast so)).
    assert (CP : Permutation chosen (without wi (s_pts st))).
    { apply (argsort_without _ (s_f st)); [exact AS|lia|]. intros E. rewrite E in GL. cbn in GL. lia. }
    assert (CS : Forall (shaped w v) chosen).
    { apply Forall_forall. intros p Hp. apply in_map_iff in Hp. destruct Hp as (i & <- & Hi). apply Forall_nth_ok; [exact GS|].
      assert (I : In i so). { rewrite (app_removelast_last 0%nat (l := so)) by (intros E; rewrite E in LS; cbn in LS; lia). apply in_or_app. left. exact Hi. }
      destruct SB as (_ & RG & _). specialize (RG i I). lia. }
    assert (CNE : chosen <> []).
    { intros E. apply (f_equal (@length pt)) in E. rewrite (Permutation_length CP) in E.
      pose proof (Permutation_length (without_perm wi (s_pts st) pt_zero ltac:(lia))) as PL. cbn [length] in PL, E. lia. }
    destruct (centroid_ok w v chosen CNE CS) as (CC & CSH). set (c := centroid chosen) in *.
    apply (center_perm _ _ _ CP) in CC.
    assert (WS : shaped w v (pnth wi (s_pts st))) by (apply (good_nth n); [exact G|lia]).
    destruct (image_ok w v _ _ WS CSH) as (RI & RS). set (r := reflect_pt (pnth wi (s_pts st)) c) in *.
    rewrite !V by lia. unfold make.
    assert (HEAD : forall P (st' : state), P /\ good n st' -> (P -> nm_next F (s_pts st) (s_pts st')) -> nm_next F (s_pts st) (s_pts st') /\ good n st').
    { intros P st' (A & B) K. split; [apply K; exact A|exact B]. }
    assert (PUT : forall p calls, shaped w v p -> replaced (s_pts st) wi p (s_pts (put func g ndim wi p st calls)) /\ good n (put func g ndim wi p st calls)).
    { intros p calls SP. split; [unfold put; cbn [s_pts]; apply set_nth_replaced; lia|apply put_good; assumption]. }
    destruct (Rltb (F r) (F (pnth si (s_pts st))) && Rleb (F (pnth (s_bi st) (s_pts st))) (F r)) eqn:T1.
    { apply andb_prop in T1. destruct T1 as (T1 & T2). apply (proj1 (Rltb_true _ _)) in T1. apply (proj1 (Rleb_true _ _)) in T2.
      apply (HEAD _ _ (PUT r _ RS)). intros RP. exists (s_bi st), si, wi, c, r. repeat (split; [assumption || congruence|]). left. split; [split; assumption|exact RP]. }
    assert (T1' : F (pnth si (s_pts st)) <= F r \/ F r < F (pnth (s_bi st) (s_pts st))).
    { apply andb_false_iff in T1. destruct T1 as [T1|T1]; [left; apply (proj1 (Rltb_false _ _)) in T1; lra|right; apply (proj1 (Rleb_false _ _)) in T1; lra]. }
    destruct (Rltb (F r) (F (pnth (s_bi st) (s_pts st)))) eqn:T2.
    { apply (proj1 (Rltb_true _ _)) in T2. destruct (image_ok w v _ _ CSH RS) as (EI & ES). set (e := reflect_pt c r) in *.
      destruct (Rltb (F e) (F r)) eqn:T3.
      - apply (proj1 (Rltb_true _ _)) in T3. apply (HEAD _ _ (PUT e _ ES)). intros RP. exists (s_bi st), si, wi, c, r.
        repeat (split; [assumption || congruence|]). right. left. split; [exact T2|]. exists e. split; [exact EI|]. left. split; assumption.
      - apply (proj1 (Rltb_false _ _)) in T3. apply (HEAD _ _ (PUT r _ RS)). intros RP. exists (s_bi st), si, wi, c, r.
        repeat (split; [assumption || congruence|]). right. left. split; [exact T2|]. exists e. split; [exact EI|]. right. split; [lra|assumption]. }
    apply (proj1 (Rltb_false _ _)) in T2.
    set (out := Rltb (F r) (F (pnth wi (s_pts st)))).
    set (k := if out then centroid [c; r] else centroid [c; pnth wi (s_pts st)]).
    assert (K : ((F r < F (pnth wi (s_pts st)) /\ is_center [c; r] k \/ F (pnth wi (s_pts st)) <= F r /\ is_center [c; pnth wi (s_pts st)] k) /\ shaped w v k) /\
              (if out then F r else F (pnth wi (s_pts st))) = Rmin (F r) (F (pnth wi (s_pts st)))).
    { unfold k. destruct out eqn:O; unfold out in O.
      - apply (proj1 (Rltb_true _ _)) in O. destruct (centroid_ok w v [c; r]) as (A & B); [discriminate|apply Forall_two; assumption|].
        split; [split; [left; split; assumption|exact B]|]. symmetry. apply Rmin_left. lra.
      - apply (proj1 (Rltb_false _ _)) in O. destruct (centroid_ok w v [c; pnth wi (s_pts st)]) as (A & B); [discriminate|apply Forall_two; assumption|].
        split; [split; [right; split; [lra|assumption]|exact B]|]. symmetry. apply Rmin_right. lra. }
    destruct K as ((K1 & K2) & K3). rewrite K3.
    destruct (Rltb (F k) (Rmin (F r) (F (pnth wi (s_pts st))))) eqn:T3.
    - apply (proj1 (Rltb_true _ _)) in T3. apply (HEAD _ _ (PUT k _ K2)). intros RP. exists (s_bi st), si, wi, c, r.
      repeat (split; [assumption || congruence|]). right. right. split; [lra|]. split; [lra|]. exists k. split; [exact K1|]. left. split; assumption.
    - apply (proj1 (Rltb_false _ _)) in T3. set (st1 := mk_state _ _ _ _ _ _ _ _).
      destruct (shrink_pts n (s_bi st) (seq 0 (length (s_pts st))) (seq_NoDup _ _) ltac:(lia) ltac:(intros i Hi; apply in_seq in Hi; lia) st1 G)
        as (A & B & _ & D). set (st' := fold_left _ _ _) in *. split; [|exact A]. exists (s_bi st), si, wi, c, r.
      repeat (split; [assumption || congruence|]). right. right. split; [lra|]. split; [lra|]. exists k. split; [exact K1|]. right. split; [lra|].
      split; [destruct A as (-> & _); lia|]. split; [exact B|]. intros i Hi NB. rewrite D; [|apply in_seq; lia|exact NB].
      apply (centroid_ok w v); [discriminate|]. apply Forall_two; apply (good_nth n); try exact G; lia.
  Qed.

  Lemma absorb_ok l news so sn reps : sorted_by (map F l) so -> is_argsort (map F news) sn ->
    (length sn <= length so)%nat -> find_replacements (map F l) (map F news) so sn = Ok reps ->
    absorbed F l news (fun i => In i so) reps (replace_all pt_zero reps news l).
  Proof.
    intros SO SN LE E. pose proof (argsort_all _ _ SN) as ALL. destruct SN as (SN & _).
    destruct (C44_sound _ _ _ _ SO SN LE) as (reps0 & E0 & (ND1 & ND2 & IMP) & HI & LO).
    rewrite E in E0. injection E0 as <-. rewrite map_length in ALL.
    assert (VL : forall i, (i < length l)%nat -> nth i (map F l) 0 = F (pnth i l)).
    { intros i Hi. rewrite (nth_indep _ 0 (F pt_zero)) by (rewrite map_length; lia). apply (map_nth F). }
    assert (VN : forall i, (i < length news)%nat -> nth i (map F news) 0 = F (pnth i news)).
    { intros i Hi. rewrite (nth_indep _ 0 (F pt_zero)) by (rewrite map_length; lia). apply (map_nth F). }
    assert (RO : forall i, In i so -> (i < length l)%nat) by (intros i Hi; destruct SO as (_ & R & _); specialize (R i Hi); rewrite map_length in R; exact R).
    assert (RN : forall i, In i sn -> (i < length news)%nat) by (intros i Hi; destruct SN as (_ & R & _); specialize (R i Hi); rewrite map_length in R; exact R).
    assert (IF : forall i, In i (map fst reps) -> In i so).
    { intros i Hi. apply in_map_iff in Hi. destruct Hi as ((i', j) & <- & Hij). apply (IMP i' j Hij). }
    assert (IS : forall j, In j (map snd reps) -> In j sn).
    { intros j Hj. apply in_map_iff in Hj. destruct Hj as ((i, j') & <- & Hij). apply (IMP i j' Hij). }
    constructor.
    - apply replace_all_length.
    - intros i j Hij. destruct (IMP i j Hij) as (A & B & C). rewrite VL, VN in C by auto.
      split; [auto|]. split; [exact A|]. split; [auto|]. split; [exact C|]. apply nth_replace_in; auto.
    - exact ND1.
    - exact ND2.
    - intros i Hi. apply nth_replace_not. exact Hi.
    - intros i i' Hi NI Hi' AL. rewrite <- !VL by auto. apply HI; assumption.
    - intros j j' Hj NJ Hj'. rewrite <- !VN by auto. apply LO; try assumption. apply ALL. exact Hj'.
    - intros reps' N1 N2 HR. apply (C44_maximal _ _ _ _ _ SO SN LE E). split; [exact N1|]. split; [exact N2|].
      intros i j Hij. destruct (HR i j Hij) as (A & B & C & D). split; [exact B|]. split; [apply ALL; exact C|]. rewrite VL, VN by assumption. exact D.
  Qed.

  Lemma absorbed_iff l news (P Q : nat -> Prop) reps l' : (forall i, (i < length l)%nat -> (P i <-> Q i)) ->
    absorbed F l news P reps l' -> absorbed F l news Q reps l'.
  Proof.
    intros H [A B C D E G I J]. constructor; try assumption.
    - intros i j Hij. destruct (B i j Hij) as (B1 & B2 & B3). split; [exact B1|]. split; [apply H; assumption|exact B3].
    - intros i i' Hi NI L AL. apply G; try assumption. apply H; assumption.
    - intros reps' N1 N2 HR. apply J; try assumption. intros i j Hij. destruct (HR i j Hij) as (B1 & B2 & B3).
      split; [exact B1|]. split; [apply H; assumption|exact B3].
  Qed.

  Lemma replace_all_Forall (P : pt -> Prop) reps news l : (forall p, In p reps -> (snd p < length news)%nat) ->
    Forall P news -> Forall P l -> Forall P (replace_all pt_zero reps news l).
  Proof.
    unfold replace_all. revert l. induction reps as [|p reps IH]; intros l R N L; [exact L|]. cbn [fold_left]. apply IH.
    - intros q Hq. apply R. right. exact Hq.
    - exact N.
    - apply set_nth_Forall; [|exact L]. apply Forall_nth_ok; [exact N|]. apply R. left. reflexivity.
  Qed.

  Lemma Forall2_map_r {A B} (P : A -> B -> Prop) (f : A -> B) l : (forall x, In x l -> P x (f x)) -> Forall2 P l (map f l).
  Proof.
    induction l as [|a l IH]; intros H; [constructor|]. cbn [map]. constructor; [apply H; left; reflexivity|].
    apply IH. intros x Hx. apply H. right. exact Hx.
  Qed.

  Lemma map_last {A B} (f : A -> B) l d e : l <> [] -> last (map f l) e = f (last l d).
  Proof.
    induction l as [|a l IH]; intros H; [congruence|]. destruct l as [|b l]; [reflexivity|].
    change (last (map f (b :: l)) e = f (last (b :: l) d)). apply IH. discriminate.
  Qed.
  Lemma map_removelast {A B} (f : A -> B) l : removelast (map f l) = map f (removelast l).
  Proof.
    induction l as [|a l IH]; [reflexivity|]. destruct l as [|b l]; [reflexivity|].
    change (f a :: removelast (map f (b :: l)) = f a :: map f (removelast (b :: l))). rewrite IH. reflexivity.
  Qed.
  Lemma in_removelast {A} (x : A) l : In x (removelast l) -> In x l.
  Proof.
    induction l as [|a l IH]; [intros []|]. destruct l as [|b l]; [intros []|].
    change (removelast (a :: b :: l)) with (a :: removelast (b :: l)). intros [->|H]; [left; reflexivity|right; apply IH; exact H].
  Qed.
  Lemma last_in {A} (l : list A) d : l <> [] -> In (last l d) l.
  Proof.
    intros H. rewrite (app_removelast_last d H) at 2. apply in_or_app. right. left. reflexivity.
  Qed.

  Lemma combine_split_perm (k : nat) (so sn : list nat) : (k <= length sn)%nat -> (k <= length so)%nat ->
    Permutation (map snd (combine (last_n k so) (firstn k sn)) ++ skipn k sn) sn.
  Proof.
    intros H1 H2. rewrite combine_snd by (rewrite last_n_length, firstn_length_le; lia). rewrite firstn_skipn. apply Permutation_refl.
  Qed.

  Lemma step_crs_next n d st st' : good n st -> (0 < n)%nat -> (0 < ndim)%nat -> (g_batch g * ndim <= n - 1)%nat ->
    draws_sound g ndim w n d -> length (g_spher g) = v ->
    s_bi st = hd 0%nat (argsort (s_f st)) ->
    step_crs func argsort g ndim d (argsort (s_f st)) st = Ok st' ->
    crs_next F d (s_pts st) (s_pts st') /\ good n st'.
  Proof.
    intros G NP ND HN (DC & DR & DW & DWR & DS & DSR) SV BI E. pose proof G as (GL & GS & GF & GX).
    assert (HB : (g_batch g <= n - 1)%nat) by nia.
    assert (LF : length (s_f st) = n) by (rewrite GF, map_length; exact GL).
    assert (NE : s_f st <> []) by (intros E'; rewrite E' in LF; cbn in LF; lia).
    pose proof (Hsort (s_f st)) as AS.
    destruct (argsort_head_min (s_f st) _ AS NE) as (HB1 & HB2). rewrite <- BI in HB1, HB2.
    set (so := argsort (s_f st)) in *. set (b := s_bi st) in *.
    assert (LS : length so = n) by (destruct AS as (_ & ->); exact LF).
    assert (SB : sorted_by (s_f st) so) by apply AS.
    assert (V : forall i, (i < n)%nat -> nth i (s_f st) 0 = F (pnth i (s_pts st))) by (intros i Hi; apply (good_nth n); assumption).
    assert (LOW : lowest F (s_pts st) b).
    { split; [lia|]. intros i Hi. rewrite GL in Hi. rewrite <- !V by lia. apply HB2. apply nth_In. lia. }
    unfold step_crs in E. set (refl := reflections d st) in E. set (new_f := map _ refl) in E.
    assert (SH : forall k, (k < n - 1)%nat -> shaped w v (pnth (shift_index b k) (s_pts st))).
    { intros k Hk. apply Forall_nth_ok; [exact GS|]. unfold shift_index. destruct (Nat.leb b k); lia. }
    assert (RP : Forall2 (fun row r => (exists c,
          is_center (map (fun k => pnth k (without b (s_pts st))) (removelast row) ++ [pnth b (s_pts st)]) c /\
          is_image (pnth (last row 0%nat) (without b (s_pts st))) c r) /\ shaped w v r) (d_choice d) refl).
    { unfold refl, reflections. apply Forall2_map_r. intros row Hrow. destruct (DR row Hrow) as (LR & RR). cbv zeta. fold b.
      assert (NR : row <> []) by (intros ->; cbn in LR; lia).
      set (cl := map (fun i => nth i (s_pts st) pt_zero) (removelast (map (shift_index b) row) ++ [b])).
      assert (EC : cl = map (fun k => pnth k (without b (s_pts st))) (removelast row) ++ [pnth b (s_pts st)]).
      { unfold cl. rewrite map_app, map_removelast, map_map. cbn [map]. f_equal. apply map_ext. intros k. symmetry. apply nth_without. lia. }
      assert (CS : Forall (shaped w v) cl).
      { rewrite EC. apply Forall_app. split.
        - apply Forall_forall. intros p Hp. apply in_map_iff in Hp. destruct Hp as (k & <- & Hk). rewrite nth_without by lia.
          apply SH. apply RR. apply in_removelast. exact Hk.
        - constructor; [|constructor]. apply Forall_nth_ok; [exact GS|lia]. }
      destruct (centroid_ok w v cl) as (CC & CSH); [rewrite EC; destruct (map _ (removelast row)); discriminate|exact CS|].
      rewrite (map_last _ _ 0%nat) by exact NR. set (c := centroid cl) in *.
      assert (PS : shaped w v (pnth (shift_index b (last row 0%nat)) (s_pts st))) by (apply SH, RR, last_in; exact NR).
      destruct (image_ok w v _ _ PS CSH) as (RI & RS). split; [|exact RS]. exists c. rewrite <- EC. split; [exact CC|].
      rewrite nth_without by lia. exact RI. }
    assert (RS : Forall (shaped w v) refl).
    { clear - RP. induction RP as [|x y lx ly (_ & H) _ IH]; constructor; assumption. }
    assert (RI : Forall2 (fun row r => exists c,
          is_center (map (fun k => pnth k (without b (s_pts st))) (removelast row) ++ [pnth b (s_pts st)]) c /\
          is_image (pnth (last row 0%nat) (without b (s_pts st))) c r) (d_choice d) refl).
    { clear - RP. induction RP as [|x y lx ly (H & _) _ IH]; constructor; assumption. }
    assert (LR : length refl = g_batch g) by (unfold refl, reflections; rewrite map_length; exact DC).
    assert (EN : new_f = map F refl) by reflexivity.
    assert (LN : length (argsort new_f) = g_batch g) by (destruct (Hsort new_f) as (_ & ->); rewrite EN, map_length; exact LR).
    apply bind_ok in E. destruct E as (reps & ER & E).
    rewrite GF, EN in ER. rewrite <- GF in ER at 1.
    pose proof (absorb_ok (s_pts st) refl so (argsort (map F refl)) reps ltac:(rewrite <- GF; exact SB) (Hsort _) ltac:(rewrite <- EN; lia)) as AB.
    specialize (AB ltac:(rewrite <- GF; exact ER)).
    set (l1 := replace_all pt_zero reps refl (s_pts st)) in *.
    apply (absorbed_iff _ _ _ (fun _ => True)) in AB.
    2:{ intros i Hi. split; [auto|]. intros _. apply (argsort_all _ _ AS). lia. }
    assert (RR : forall p, In p reps -> (snd p < length refl)%nat).
    { intros (i, j) Hij. apply (ab_pairs _ _ _ _ _ _ AB) in Hij. apply Hij. }
    set (st1 := apply_reps g ndim reps refl new_f st (s_calls st + g_batch g)) in E.
    assert (G1 : good n st1).
    { unfold st1, apply_reps, good. cbn [s_pts s_f s_x]. fold l1. split; [rewrite (ab_length _ _ _ _ _ _ AB); exact GL|].
      split; [apply replace_all_Forall; assumption|]. split.
      - rewrite GF, EN. apply replace_all_map. exact RR.
      - rewrite GX. apply replace_all_map. exact RR. }
    destruct (find_shape (s_f st) new_f so (argsort new_f) ltac:(lia)) as (k & K & ER' & _).
    assert (EQ : reps = combine (last_n k so) (firstn k (argsort new_f))).
    { rewrite EN in ER' |- *. rewrite ER in ER'. injection ER' as ->. reflexivity. }
    assert (LK : length reps = k) by (rewrite EQ, combine_length, last_n_length, firstn_length_le by lia; lia).
    destruct (Nat.eqb_spec (length reps) (g_batch g)) as [EB|NB].
    { injection E as <-. split; [|exact G1]. exists b, refl, reps, l1. split; [exact LOW|]. split; [exact RI|]. split; [exact AB|]. left. split; [lia|reflexivity]. }
    rewrite LK in *. set (rest := skipn k (argsort new_f)) in *. set (tr := firstn (length so - k) so) in E.
    set (best := argmin (s_f st1)) in E. set (muts := zipw _ rest (combine (d_wc d) (d_ws d))) in E. set (new_f2 := map _ muts) in E.
    apply bind_ok in E. destruct E as (reps2 & ER2 & E). injection E as <-. cbn [s_pts].
    pose proof G1 as (GL1 & GS1 & GF1 & GX1).
    assert (LF1 : length (s_f st1) = n) by (rewrite GF1, map_length; exact GL1).
    assert (LREST : length rest = (g_batch g - k)%nat) by (unfold rest; rewrite skipn_length; lia).
    assert (NE1 : s_f st1 <> []) by (intros E'; rewrite E' in LF1; cbn in LF1; lia).
    destruct (argmin_spec (s_f st1) NE1) as (AM1 & AM2). fold best in AM1, AM2.
    assert (LOW1 : lowest F l1 best).
    { change l1 with (s_pts st1). split; [lia|]. intros i Hi. rewrite GL1 in Hi.
      destruct (good_nth n st1 i G1 Hi) as (<- & _). destruct (good_nth n st1 best G1 ltac:(lia)) as (<- & _). apply AM2. apply nth_In. lia. }
    assert (LM : length muts = length rest) by (unfold muts; rewrite zipw_len, combine_length; lia).
    assert (MU : forall i, (i < length rest)%nat ->
            is_mutation (pnth (nth i rest 0%nat) refl) (pnth best l1) (nth i (d_wc d) []) (nth i (d_ws d) []) (pnth i muts) /\ shaped w v (pnth i muts)).
    { intros i Hi. unfold muts. rewrite (nth_zipw _ _ _ _ 0%nat ([], [])) by (rewrite ?combine_length; lia).
      rewrite combine_nth by lia. cbn [fst snd]. change l1 with (s_pts st1). apply mutation_ok.
      - apply Forall_nth_ok; [exact RS|]. assert (IR : In (nth i rest 0%nat) (argsort new_f)).
        { unfold rest. rewrite <- (firstn_skipn k (argsort new_f)) at 2. apply in_or_app. right. apply nth_In. exact Hi. }
        destruct (Hsort new_f) as ((_ & RG & _) & _). specialize (RG _ IR). rewrite EN, map_length in RG. exact RG.
      - apply Forall_nth_ok; [exact GS1|lia].
      - apply DWR. apply nth_In. lia.
      - rewrite <- SV. apply DSR. apply nth_In. lia. }
    assert (EN2 : new_f2 = map F muts) by reflexivity.
    assert (LN2 : length (argsort new_f2) = length rest) by (destruct (Hsort new_f2) as (_ & ->); rewrite EN2, map_length; exact LM).
    assert (KEPT : forall i, ~ In i (map fst reps) -> nth i (s_f st1) 0 = nth i (s_f st) 0).
    { intros i Hi. unfold st1, apply_reps. cbn [s_f]. apply nth_replace_not. exact Hi. }
    assert (FST : map fst reps = last_n k so) by (rewrite EQ; apply combine_fst; rewrite last_n_length, firstn_length_le; lia).
    assert (SPLIT : so = tr ++ last_n k so) by (unfold tr, last_n; symmetry; apply firstn_skipn).
    assert (ALLOWED : forall i, (i < n)%nat -> (In i tr <-> ~ In i (map fst reps))).
    { intros i Hi. rewrite FST. pose proof (argsort_all _ _ AS i ltac:(lia)) as I. rewrite SPLIT in I. apply in_app_or in I.
      destruct SB as (NDS & _). rewrite SPLIT in NDS.
      assert (X : In i tr -> ~ In i (last_n k so)).
      { clear - NDS. intros H1 H2. induction tr as [|a l IH]; [destruct H1|]. cbn in NDS. inversion NDS as [|? ? NI N]; subst.
        destruct H1 as [->|H1]; [apply NI, in_or_app; right; exact H2|apply IH; assumption]. }
      tauto. }
    assert (STR : sorted_by (s_f st1) tr).
    { apply sorted_by_ext with (vals := s_f st); [apply sorted_by_firstn; exact SB|lia|].
      intros i Hi. apply KEPT. apply ALLOWED; [|exact Hi]. destruct SB as (_ & RG & _). rewrite <- LF. apply RG. rewrite SPLIT. apply in_or_app. left. exact Hi. }
    rewrite GF1 in ER2, STR. rewrite EN2 in ER2.
    assert (LTR : (length (argsort (map F muts)) <= length tr)%nat) by (rewrite <- EN2; unfold tr; rewrite firstn_length_le; lia).
    pose proof (absorb_ok (s_pts st1) muts tr (argsort (map F muts)) reps2 STR (Hsort _) LTR ER2) as AB2.
    apply (absorbed_iff _ _ _ (fun i => ~ In i (map fst reps))) in AB2; [|intros i Hi; rewrite GL1 in Hi; apply ALLOWED; exact Hi].
    assert (RR2 : forall p, In p reps2 -> (snd p < length muts)%nat).
    { intros (i, j) Hij. apply (ab_pairs _ _ _ _ _ _ AB2) in Hij. apply Hij. }
    split.
    - exists b, refl, reps, l1. split; [exact LOW|]. split; [exact RI|]. split; [exact AB|]. right. split; [lia|].
      exists best, rest, muts, reps2. split; [exact LOW1|]. split; [|split; [|split; [exact LM|split]]].
      + apply perm_trans with (argsort new_f); [rewrite EQ; apply combine_split_perm; lia|].
        replace (length refl) with (length new_f) by (rewrite EN, map_length; reflexivity). apply argsort_perm. apply Hsort.
      + assert (SS : StronglySorted (fun i j => nth i new_f 0 <= nth j new_f 0) rest).
        { destruct (Hsort new_f) as ((_ & _ & S) & _). unfold rest. clear - S. revert k. induction S as [|a l S IH FA]; intros [|k]; cbn; try constructor; auto. }
        assert (RG : forall i, In i rest -> (i < length refl)%nat).
        { intros i Hi. destruct (Hsort new_f) as ((_ & RG & _) & _). rewrite <- (map_length F), <- EN. apply RG.
          rewrite <- (firstn_skipn k (argsort new_f)). apply in_or_app. right. exact Hi. }
        assert (VN : forall i, (i < length refl)%nat -> nth i new_f 0 = F (pnth i refl)).
        { intros i Hi. rewrite EN. rewrite (nth_indep _ 0 (F pt_zero)) by (rewrite map_length; exact Hi). apply (map_nth F). }
        clear - SS RG VN. induction SS as [|a l S IH FA]; constructor.
        * apply IH. intros i Hi. apply RG. right. exact Hi.
        * rewrite Forall_forall in *. intros x Hx. rewrite <- !VN by (apply RG; cbn; auto). apply FA. exact Hx.
      + intros i Hi. apply MU. exact Hi.
      + exact AB2.
    - unfold good. cbn [s_pts s_f s_x apply_reps]. split; [rewrite replace_all_length; exact GL1|]. split.
      + apply replace_all_Forall; [exact RR2| |exact GS1]. apply Forall_forall. intros p Hp. apply In_nth with (d := pt_zero) in Hp.
        destruct Hp as (i & Hi & <-). apply MU. lia.
      + split.
        * change (replace_all 0 reps2 new_f2 (s_f st1) = map F (replace_all pt_zero reps2 muts (s_pts st1))).
          rewrite GF1, EN2. apply replace_all_map. exact RR2.
        * change (replace_all [] reps2 (map make muts) (s_x st1) = map make (replace_all pt_zero reps2 muts (s_pts st1))).
          rewrite GX1. apply replace_all_map. exact RR2.
  Qed.
End Steps.
