(** Lemmas for the pulse data module. *)
From Coq Require Import Reals ZArith Lra Lia Permutation.
From Verif Require Import Py RList M_Pulse S_Pulse.
Open Scope nat_scope.

Lemma bind_ok {A B} (r : result A) (f : A -> result B) y : bind r f = Ok y -> exists x, r = Ok x /\ f x = Ok y.
Proof. destruct r as [x|]; [|discriminate]. cbn. eauto. Qed.

(** ** Indices *)

Lemma pyidx_in n i : i < n -> pyidx n (Z.of_nat i) = Ok i.
Proof.
  intros H. unfold pyidx. replace (0 <=? Z.of_nat i)%Z with true by (symmetry; apply Z.leb_le; lia).
  replace (Z.of_nat i <? Z.of_nat n)%Z with true by (symmetry; apply Z.ltb_lt; lia). cbn. rewrite Nat2Z.id. reflexivity.
Qed.

Lemma pyidx_iff n i k : (0 < n)%nat -> pyidx n i = Ok k <-> (- Z.of_nat n <= i < Z.of_nat n)%Z /\ Z.of_nat k = (i mod Z.of_nat n)%Z.
Proof.
  intros Hn. unfold pyidx.
  assert (HM : (0 <= i < Z.of_nat n)%Z -> (i mod Z.of_nat n = i)%Z) by (intros; apply Z.mod_small; lia).
  assert (HM' : (- Z.of_nat n <= i < 0)%Z -> (i mod Z.of_nat n = i + Z.of_nat n)%Z).
  { intros H. rewrite <- (Z.mod_small (i + Z.of_nat n) (Z.of_nat n)) by lia. replace (i + Z.of_nat n)%Z with (i + 1 * Z.of_nat n)%Z by lia. symmetry. apply Z_mod_plus_full. }
  destruct (Z.leb_spec 0 i); destruct (Z.ltb_spec i (Z.of_nat n)); cbn [andb].
  - rewrite HM by lia. split; [intros HX; injection HX as <-; lia|]. intros [_ HX]. f_equal. lia.
  - replace (i <? 0)%Z with false by (symmetry; apply Z.ltb_ge; lia). rewrite andb_false_r. split; [discriminate|lia].
  - replace (i <? 0)%Z with true by (symmetry; apply Z.ltb_lt; lia). rewrite andb_true_r. destruct (Z.leb_spec (- Z.of_nat n) i).
    + rewrite HM' by lia. split; [intros HX; injection HX as <-; lia|]. intros [_ HX]. f_equal. lia.
    + split; [discriminate|lia].
  - lia.
Qed.

Lemma pyidx_string p : (1 <= p <= 86)%Z -> exists s, s < 86 /\ p = (Z.of_nat s + 1)%Z /\ pyidx 86 (p - 1) = Ok s.
Proof.
  intros H. exists (Z.to_nat (p - 1)). split; [lia|]. split; [lia|]. replace (p - 1)%Z with (Z.of_nat (Z.to_nat (p - 1))) at 1 by lia. apply pyidx_in. lia.
Qed.

Lemma pyidx_dom p : (1 <= p <= 60)%Z -> exists s, s < 60 /\ p = (Z.of_nat s + 1)%Z /\ pyidx 60 (p - 1) = Ok s.
Proof.
  intros H. exists (Z.to_nat (p - 1)). split; [lia|]. split; [lia|]. replace (p - 1)%Z with (Z.of_nat (Z.to_nat (p - 1))) at 1 by lia. apply pyidx_in. lia.
Qed.

Lemma upd_same {A} (g : grid A) e s d v : upd g e s d v e s d = v.
Proof. unfold upd. rewrite !Nat.eqb_refl. reflexivity. Qed.

Lemma upd_other {A} (g : grid A) e s d v e' s' d' : (e, s, d) <> (e', s', d') -> upd g e s d v e' s' d' = g e' s' d'.
Proof. intros H. unfold upd. destruct (Nat.eqb_spec e e'), (Nat.eqb_spec s s'), (Nat.eqb_spec d d'); cbn; try reflexivity. congruence. Qed.

Lemma setf_same {A} (f : nat -> A) k v : setf f k v k = v.
Proof. unfold setf. rewrite Nat.eqb_refl. reflexivity. Qed.

Lemma setf_other {A} (f : nat -> A) k v k' : k <> k' -> setf f k v k' = f k'.
Proof. intros H. unfold setf. destruct (Nat.eqb_spec k k'); [congruence|reflexivity]. Qed.

Lemma nth_error_flat_map {A} (f : nat -> list A) L : (forall i, length (f i) = L) -> forall n a i j, i < n -> j < L ->
  nth_error (flat_map f (seq a n)) (i * L + j) = nth_error (f (a + i)) j.
Proof.
  intros HL. induction n as [|n IH]; intros a i j Hi Hj; [lia|]. cbn [seq flat_map]. destruct i as [|i].
  - cbn [Nat.mul Nat.add]. rewrite nth_error_app1 by (rewrite HL; lia). rewrite Nat.add_0_r. reflexivity.
  - rewrite nth_error_app2 by (rewrite HL; cbn; lia). rewrite HL. replace (S i * L + j - L) with (i * L + j) by (cbn; lia).
    rewrite IH by lia. f_equal. f_equal. lia.
Qed.

Lemma length_flat_map {A} (f : nat -> list A) L : (forall i, length (f i) = L) -> forall n a, length (flat_map f (seq a n)) = n * L.
Proof. intros HL. induction n as [|n IH]; intros a; [reflexivity|]. cbn [seq flat_map]. rewrite app_length, HL, IH. lia. Qed.

Lemma length_flatten {A} size (g : grid A) : length (flatten size g) = size * 86 * 60.
Proof.
  unfold flatten. rewrite (length_flat_map _ (86 * 60)); [lia|]. intros e. rewrite (length_flat_map _ 60); [reflexivity|].
  intros s. rewrite map_length, seq_length. reflexivity.
Qed.

Lemma nth_error_flatten {A} size (g : grid A) e s d : e < size -> s < 86 -> d < 60 ->
  nth_error (flatten size g) (e * 86 * 60 + s * 60 + d) = Some (g e s d).
Proof.
  intros He Hs Hd. unfold flatten. replace (e * 86 * 60 + s * 60 + d) with (e * (86 * 60) + (s * 60 + d)) by lia.
  rewrite (nth_error_flat_map _ (86 * 60)); [|intros i; rewrite (length_flat_map _ 60); [reflexivity|intros; rewrite map_length, seq_length; reflexivity]|lia|lia].
  cbn [Nat.add]. rewrite (nth_error_flat_map _ 60); [|intros i; rewrite map_length, seq_length; reflexivity|lia|lia].
  cbn [Nat.add]. apply map_nth_error. rewrite nth_error_nth' with (d := 0) by (rewrite seq_length; lia). rewrite seq_nth by lia. reflexivity.
Qed.

Lemma flat_index_nat e s d : flat_index (Z.of_nat e, Z.of_nat s, Z.of_nat d) = Z.of_nat (e * 86 * 60 + s * 60 + d).
Proof. unfold flat_index. lia. Qed.

Lemma fetch_flatten {A} size (g : grid A) e s d : e < size -> s < 86 -> d < 60 ->
  fetch (flatten size g) (flat_index (Z.of_nat e, Z.of_nat s, Z.of_nat d)) = Ok (g e s d).
Proof.
  intros He Hs Hd. unfold fetch. rewrite flat_index_nat, pyidx_in by (rewrite length_flatten; nia). cbn [bind]. rewrite nth_error_flatten by assumption. reflexivity.
Qed.

Lemma flatten_ext {A} size (g h : grid A) : (forall e s d, e < size -> g e s d = h e s d) -> flatten size g = flatten size h.
Proof.
  intros H. unfold flatten. assert (HE : forall l, (forall e, In e l -> e < size) ->
    flat_map (fun e => flat_map (fun s => map (g e s) (seq 0 60)) (seq 0 86)) l = flat_map (fun e => flat_map (fun s => map (h e s) (seq 0 60)) (seq 0 86)) l).
  { induction l as [|e l IH]; intros Hl; [reflexivity|]. cbn [flat_map]. rewrite IH by (intros x Hx; apply Hl; right; exact Hx). f_equal.
    assert (He : e < size) by (apply Hl; left; reflexivity). generalize (seq 0 86). induction l0 as [|s l0 IH0]; [reflexivity|]. cbn [flat_map]. rewrite IH0. f_equal.
    apply map_ext. intros d. apply H. exact He. }
  apply HE. intros e He. apply in_seq in He. lia.
Qed.

(** ** Events *)

Lemma find_event_none labels : forall k e f, ~ In e labels -> find_event labels k e f = f.
Proof.
  induction labels as [|l rest IH]; intros k e f H; [reflexivity|]. cbn [find_event]. rewrite IH by (intros Hx; apply H; right; exact Hx).
  destruct (Nat.eqb_spec l e) as [->|]; [exfalso; apply H; left; reflexivity|reflexivity].
Qed.

Lemma find_event_nth labels : NoDup labels -> forall k e f i, nth_error labels i = Some e -> find_event labels k e f = Some (k + i).
Proof.
  induction 1 as [|l rest Hl HN IH]; intros k e f i Hi; [destruct i; discriminate|]. cbn [find_event]. destruct i as [|i]; cbn in Hi.
  - injection Hi as ->. rewrite Nat.eqb_refl. rewrite find_event_none by exact Hl. f_equal. lia.
  - rewrite (IH (S k) e _ i Hi). f_equal. lia.
Qed.

Lemma event_index_in labels e : NoDup labels -> In e labels -> exists i, nth_error labels i = Some e /\ event_index labels e = Ok i.
Proof.
  intros HN He. apply In_nth_error in He. destruct He as (i & Hi). exists i. split; [exact Hi|]. unfold event_index. rewrite (find_event_nth _ HN 0 e None i Hi). reflexivity.
Qed.

(** ** The loop over the pulses *)
Section Loop.
Variables (labels : list nat) (q : bool).
Hypothesis labels_nodup : NoDup labels.

(** Cell of an accepted pulse. *)
Definition Cell (p : pulse) (e s d : nat) : Prop :=
  nth_error labels e = Some (p_event p) /\ s < 86 /\ d < 60 /\ p_string p = (Z.of_nat s + 1)%Z /\ p_dom p = (Z.of_nat d + 1)%Z.

Lemma valid_cell p : Valid labels p -> (p_dom p <= 60)%Z -> exists e s d, Cell p e s d.
Proof.
  intros HV Hd. destruct (HV Hd) as (He & Hs & Hd1). apply In_nth_error in He. destruct He as (e & He).
  exists e, (Z.to_nat (p_string p - 1)), (Z.to_nat (p_dom p - 1)). unfold Cell. repeat split; try lia. exact He.
Qed.

Lemma cell_hits p e s d : Cell p e s d -> forall e' s' d', hits labels e' s' d' p = true <-> (e', s', d') = (e, s, d).
Proof.
  intros (He & Hs & Hd & Es & Ed) e' s' d'. unfold hits. rewrite Es, Ed, !andb_true_iff, !Z.eqb_eq. split.
  - intros [[H1 H2] H3]. destruct (nth_error labels e') as [i|] eqn:E; [|discriminate]. apply Nat.eqb_eq in H1. subst i.
    assert (e' = e); [|f_equal; [f_equal|]; lia]. apply (proj1 (NoDup_nth_error labels) labels_nodup); [apply nth_error_Some; congruence|congruence].
  - intros H. injection H as -> -> ->. rewrite He, Nat.eqb_refl. auto.
Qed.

Lemma cell_unique p e s d e' s' d' : Cell p e s d -> Cell p e' s' d' -> (e', s', d') = (e, s, d).
Proof. intros H H'. apply (cell_hits _ _ _ _ H). apply (cell_hits _ _ _ _ H'). reflexivity. Qed.

Lemma step_ok k p st : Valid labels p -> (p_dom p <= 60)%Z -> exists e s d st', Cell p e s d /\ pulse_step labels q k p st = Ok st' /\
  s_charge st' = upd (s_charge st) e s d (s_charge st e s d + p_charge p)%R /\
  s_rows st' = setf (s_rows st) k {| r_charge := p_charge p; r_time := p_time p; r_third := if q then Some (s_charge st e s d + p_charge p)%R else None |} /\
  s_ids st' = setf (s_ids st) k (Z.of_nat e, Z.of_nat s, Z.of_nat d) /\
  s_window st' = setf (s_window st) e (widen (s_window st e) (p_time p)).
Proof.
  intros HV Hd. destruct (HV Hd) as (He & Hs & Hd1). destruct (event_index_in _ _ labels_nodup He) as (e & Ee & Ei).
  destruct (pyidx_string _ Hs) as (s & Hs' & Es & Ps). destruct (pyidx_dom (p_dom p)) as (d & Hd' & Ed & Pd); [lia|].
  exists e, s, d. eexists. split; [unfold Cell; auto|]. unfold pulse_step. replace (60 <? p_dom p)%Z with false by (symmetry; apply Z.ltb_ge; exact Hd).
  rewrite Ei. cbn [bind]. rewrite Ps. cbn [bind]. rewrite Pd. cbn [bind]. split; [reflexivity|]. cbn [s_charge s_rows s_ids s_window].
  repeat split. replace (p_string p - 1)%Z with (Z.of_nat s) by lia. replace (p_dom p - 1)%Z with (Z.of_nat d) by lia. reflexivity.
Qed.

Lemma step_skip k p st : (60 < p_dom p)%Z -> pulse_step labels q k p st = Ok st.
Proof. intros H. unfold pulse_step. replace (60 <? p_dom p)%Z with true by (symmetry; apply Z.ltb_lt; exact H). reflexivity. Qed.

Lemma skip_hits p e s d : (60 < p_dom p)%Z -> d < 60 -> hits labels e s d p = false.
Proof. intros H Hd. unfold hits. replace (p_dom p =? Z.of_nat d + 1)%Z with false by (symmetry; apply Z.eqb_neq; lia). apply andb_false_r. Qed.

Lemma loop_total ps : Forall (Valid labels) ps -> forall k st, exists st', pulse_loop labels q k ps st = Ok st'.
Proof.
  induction 1 as [|p ps HV HF IH]; intros k st; cbn [pulse_loop]; [eauto|]. destruct (Z_lt_le_dec 60 (p_dom p)) as [H|H].
  - rewrite step_skip by exact H. apply IH.
  - destruct (step_ok k p st HV H) as (e & s & d & st' & _ & -> & _). apply IH.
Qed.

Lemma loop_charge ps : Forall (Valid labels) ps -> forall k st st', pulse_loop labels q k ps st = Ok st' ->
  forall e s d, d < 60 -> s_charge st' e s d = (s_charge st e s d + charge_of labels ps e s d)%R.
Proof.
  induction 1 as [|p ps HV HF IH]; intros k st st' H e s d Hd; cbn [pulse_loop] in H.
  - injection H as <-. unfold charge_of. cbn. lra.
  - apply bind_ok in H. destruct H as (st1 & H1 & H). rewrite (IH _ _ _ H e s d Hd). unfold charge_of. cbn [filter].
    destruct (Z_lt_le_dec 60 (p_dom p)) as [Hp|Hp].
    + rewrite step_skip in H1 by exact Hp. injection H1 as <-. rewrite skip_hits by assumption. reflexivity.
    + destruct (step_ok k p st HV Hp) as (e0 & s0 & d0 & st2 & HC & H2 & EC & _). rewrite H2 in H1. injection H1 as <-. rewrite EC.
      destruct (hits labels e s d p) eqn:EH.
      * apply (cell_hits _ _ _ _ HC) in EH. injection EH as -> -> ->. rewrite upd_same. cbn [map]. rewrite Rsum_cons. lra.
      * rewrite upd_other; [reflexivity|]. intros E. assert (hits labels e s d p = true) by (apply (cell_hits _ _ _ _ HC); congruence). congruence.
Qed.

Lemma loop_rows_before ps : forall k st st' i, pulse_loop labels q k ps st = Ok st' -> i < k -> s_rows st' i = s_rows st i /\ s_ids st' i = s_ids st i.
Proof.
  induction ps as [|p ps IH]; intros k st st' i H Hi; cbn [pulse_loop] in H; [injection H as <-; auto|].
  apply bind_ok in H. destruct H as (st1 & H1 & H). destruct (IH _ _ _ i H ltac:(lia)) as [-> ->].
  unfold pulse_step in H1. destruct (60 <? p_dom p)%Z; [injection H1 as <-; auto|].
  apply bind_ok in H1. destruct H1 as (e & _ & H1). apply bind_ok in H1. destruct H1 as (s & _ & H1). apply bind_ok in H1. destruct H1 as (d & _ & H1).
  injection H1 as <-. cbn [s_rows s_ids]. rewrite !setf_other by lia. auto.
Qed.

Lemma loop_rows ps : Forall (Valid labels) ps -> forall k st st', pulse_loop labels q k ps st = Ok st' ->
  forall i p, nth_error ps i = Some p ->
   ((60 < p_dom p)%Z -> s_rows st' (k + i) = s_rows st (k + i) /\ s_ids st' (k + i) = s_ids st (k + i)) /\
   ((p_dom p <= 60)%Z -> forall e s d, Cell p e s d ->
      s_rows st' (k + i) = {| r_charge := p_charge p; r_time := p_time p;
        r_third := if q then Some (s_charge st e s d + charge_of labels (firstn (S i) ps) e s d)%R else None |} /\
      s_ids st' (k + i) = (Z.of_nat e, Z.of_nat s, Z.of_nat d)).
Proof.
  induction 1 as [|p0 ps HV HF IH]; intros k st st' H i p Hi; [destruct i; discriminate|]. cbn [pulse_loop] in H.
  apply bind_ok in H. destruct H as (st1 & H1 & H). destruct i as [|i]; cbn [nth_error] in Hi.
  - injection Hi as ->. rewrite Nat.add_0_r. destruct (loop_rows_before _ _ _ _ k H ltac:(lia)) as [-> ->]. split.
    + intros Hp. rewrite step_skip in H1 by exact Hp. injection H1 as <-. auto.
    + intros Hp e s d HC. destruct (step_ok k p st HV Hp) as (e0 & s0 & d0 & st2 & HC0 & H2 & _ & ER & EI & _). rewrite H2 in H1. injection H1 as <-.
      rewrite ER, EI, !setf_same. pose proof (cell_unique _ _ _ _ _ _ _ HC HC0) as E. injection E as -> -> ->.
      split; [|reflexivity]. unfold charge_of. cbn [firstn filter]. rewrite (proj2 (cell_hits _ _ _ _ HC e s d) eq_refl). cbn. rewrite Rplus_0_r. reflexivity.
  - replace (k + S i) with (S k + i) by lia. destruct (IH _ _ _ H i p Hi) as [IH1 IH2].
    assert (HR : s_rows st1 (S k + i) = s_rows st (S k + i) /\ s_ids st1 (S k + i) = s_ids st (S k + i)).
    { destruct (Z_lt_le_dec 60 (p_dom p0)) as [Hp|Hp]; [rewrite step_skip in H1 by exact Hp; injection H1 as <-; auto|].
      destruct (step_ok k p0 st HV Hp) as (e0 & s0 & d0 & st2 & HC0 & H2 & _ & ER & EI & _). rewrite H2 in H1. injection H1 as <-.
      rewrite ER, EI, !setf_other by lia. auto. }
    split; [intros Hp; destruct (IH1 Hp) as [-> ->]; exact HR|]. intros Hp e s d HC. destruct (IH2 Hp e s d HC) as [-> ->]. split; [|reflexivity].
    enough (EX : (s_charge st1 e s d + charge_of labels (firstn (S i) ps) e s d)%R = (s_charge st e s d + charge_of labels (firstn (S (S i)) (p0 :: ps)) e s d)%R) by (rewrite EX; reflexivity).
    change (firstn (S (S i)) (p0 :: ps)) with (p0 :: firstn (S i) ps).
    unfold charge_of. cbn [filter]. destruct HC as (_ & _ & Hdl & _). destruct (Z_lt_le_dec 60 (p_dom p0)) as [Hp0|Hp0].
    + rewrite step_skip in H1 by exact Hp0. injection H1 as <-. rewrite skip_hits by assumption. reflexivity.
    + destruct (step_ok k p0 st HV Hp0) as (e0 & s0 & d0 & st2 & HC0 & H2 & EC & _). rewrite H2 in H1. injection H1 as <-. rewrite EC.
      destruct (hits labels e s d p0) eqn:EH.
      * apply (cell_hits _ _ _ _ HC0) in EH. injection EH as -> -> ->. rewrite upd_same. cbn [map]. rewrite Rsum_cons. lra.
      * rewrite upd_other; [reflexivity|]. intros E. assert (hits labels e s d p0 = true) by (apply (cell_hits _ _ _ _ HC0); congruence). congruence.
Qed.

Lemma widen_spans w ts t : Spans w ts -> Spans (widen w t) (ts ++ [t]).
Proof.
  unfold Spans, widen. destruct ts as [|t0 ts].
  - intros ->. cbn. exists t, t. repeat split; auto; destruct H as [<-|[]]; lra.
  - intros (lo & hi & -> & Hlo & Hhi & HB). cbn [fst snd app]. destruct (Rltb t lo) eqn:E1; [apply Rltb_true in E1|apply Rltb_false in E1];
      (destruct (Rltb hi t) eqn:E2; [apply Rltb_true in E2|apply Rltb_false in E2]); do 2 eexists; (split; [reflexivity|]);
      change (t0 :: ts ++ [t]) with ((t0 :: ts) ++ [t]); rewrite !in_app_iff; cbn [In] in *;
      (split; [tauto|]; split; [tauto|]); intros u Hu; apply in_app_or in Hu; destruct Hu as [Hu|[<-|[]]]; try (specialize (HB _ Hu)); try (pose proof (HB _ Hlo)); try (pose proof (HB _ Hhi)); lra.
Qed.

Lemma loop_window ps : Forall (Valid labels) ps -> forall k st st', pulse_loop labels q k ps st = Ok st' ->
  forall e ts, Spans (s_window st e) ts -> Spans (s_window st' e) (ts ++ times_of labels ps e).
Proof.
  induction 1 as [|p ps HV HF IH]; intros k st st' H e ts HS; cbn [pulse_loop] in H.
  - injection H as <-. unfold times_of. cbn. rewrite app_nil_r. exact HS.
  - apply bind_ok in H. destruct H as (st1 & H1 & H). unfold times_of. cbn [filter]. destruct (Z_lt_le_dec 60 (p_dom p)) as [Hp|Hp].
    + rewrite step_skip in H1 by exact Hp. injection H1 as <-. replace (p_dom p <=? 60)%Z with false by (symmetry; apply Z.leb_gt; exact Hp).
      rewrite andb_false_r. apply (IH _ _ _ H). exact HS.
    + destruct (step_ok k p st HV Hp) as (e0 & s0 & d0 & st2 & HC & H2 & _ & _ & _ & EW). rewrite H2 in H1. injection H1 as <-.
      replace (p_dom p <=? 60)%Z with true by (symmetry; apply Z.leb_le; exact Hp). rewrite andb_true_r. destruct HC as (He & _).
      destruct (nth_error labels e) as [i|] eqn:E.
      * destruct (Nat.eqb_spec i (p_event p)) as [->|Hn].
        -- assert (e0 = e) as ->. { apply (proj1 (NoDup_nth_error labels) labels_nodup); [apply nth_error_Some; congruence|congruence]. }
           cbn [map]. replace (ts ++ p_time p :: _) with ((ts ++ [p_time p]) ++ times_of labels ps e) by (rewrite <- app_assoc; unfold times_of; rewrite E; reflexivity).
           apply (IH _ _ _ H). rewrite EW, setf_same. apply widen_spans. exact HS.
        -- replace (map p_time _) with (times_of labels ps e) by (unfold times_of; rewrite E; reflexivity). apply (IH _ _ _ H). rewrite EW, setf_other; [exact HS|]. intros ->. congruence.
      * replace (map p_time _) with (times_of labels ps e) by (unfold times_of; rewrite E; reflexivity). apply (IH _ _ _ H). rewrite EW, setf_other; [exact HS|]. intros ->. congruence.
Qed.
End Loop.

(** ** Masks and maps *)

Lemma mapr_ok {A B} (f : A -> result B) l ys : mapr f l = Ok ys <-> Forall2 (fun x y => f x = Ok y) l ys.
Proof.
  revert ys. induction l as [|x l IH]; intros ys; cbn [mapr].
  - split; [intros H; injection H as <-; constructor|intros H; inversion H; reflexivity].
  - split.
    + intros H. apply bind_ok in H. destruct H as (y & E & H). apply bind_ok in H. destruct H as (ys' & E' & H). injection H as <-. constructor; [exact E|]. apply IH. exact E'.
    + intros H. inversion H as [|? y ? ys' E HF]; subst. rewrite E. cbn [bind]. apply IH in HF. rewrite HF. reflexivity.
Qed.

Lemma Forall2_len {A B} (P : A -> B -> Prop) l m : Forall2 P l m -> length l = length m.
Proof. induction 1; cbn; congruence. Qed.

Lemma Forall2_nth {A B} (P : A -> B -> Prop) l m i x : Forall2 P l m -> nth_error l i = Some x -> exists y, nth_error m i = Some y /\ P x y.
Proof. intros H. revert i. induction H as [|a b l m Hab HF IH]; intros i Hi; destruct i as [|i]; cbn in *; try discriminate; [injection Hi as <-; eauto|apply IH; exact Hi]. Qed.

Lemma masked_filter {A} (f : A -> bool) l : masked (map f l) l = filter f l.
Proof. induction l as [|x l IH]; [reflexivity|]. cbn. destruct (f x); rewrite IH; reflexivity. Qed.

Lemma masked_incl {A} mask (l : list A) x : In x (masked mask l) -> In x l.
Proof.
  revert l. induction mask as [|b mask IH]; intros [|y l] H; cbn in *; try contradiction. destruct b; [destruct H as [<-|H]; [left; reflexivity|]|]; right; apply IH; exact H.
Qed.

Lemma masked_combine {A B} mask (l : list A) (m : list B) : length l = length m -> combine (masked mask l) (masked mask m) = masked mask (combine l m).
Proof.
  revert l m. induction mask as [|b mask IH]; intros [|x l] [|y m] H; try discriminate; try reflexivity. cbn in *. destruct b; cbn; rewrite IH by lia; reflexivity.
Qed.

Lemma nth_error_map_seq {A} (f : nat -> A) n k : k < n -> nth_error (map f (seq 0 n)) k = Some (f k).
Proof. intros H. apply map_nth_error. rewrite nth_error_nth' with (d := 0) by (rewrite seq_length; lia). rewrite seq_nth by lia. reflexivity. Qed.

(** ** Frames and tables *)

Definition Rel (k : nat) (st : pstate) (f : fstate) : Prop :=
  (forall e s d, e < 1 -> s_charge st e s d = t_charge f e s d) /\ map (s_rows st) (seq 0 k) = t_rows f /\
  map (s_ids st) (seq 0 k) = t_ids f /\ s_window st 0 = t_window f.

Lemma loop_app labels q a : forall b k st, pulse_loop labels q k (a ++ b) st = bind (pulse_loop labels q k a st) (fun st' => pulse_loop labels q (k + length a) b st').
Proof.
  induction a as [|p a IH]; intros b k st; cbn [app pulse_loop length]; [rewrite Nat.add_0_r; reflexivity|].
  destruct (pulse_step labels q k p st) as [st1|]; [|reflexivity]. cbn [bind]. rewrite IH. replace (S k + length a) with (k + S (length a)) by lia. reflexivity.
Qed.

Lemma map_setf {A} (f : nat -> A) k v : map (setf f k v) (seq 0 (S k)) = map f (seq 0 k) ++ [v].
Proof.
  rewrite seq_S, map_app. cbn [map Nat.add]. rewrite setf_same. f_equal. apply map_ext_in. intros i Hi. apply in_seq in Hi. apply setf_other. lia.
Qed.

Lemma series_loop q string dom ps : (dom <= 60)%Z -> forall k st f, Rel k st f ->
  match series q string dom ps f with
  | Ok f' => exists st', pulse_loop [0] q k (map (fun tc => {| p_event := 0; p_string := string; p_dom := dom; p_time := fst tc; p_charge := snd tc |}) ps) st = Ok st' /\
      Rel (k + length ps) st' f'
  | Err e => pulse_loop [0] q k (map (fun tc => {| p_event := 0; p_string := string; p_dom := dom; p_time := fst tc; p_charge := snd tc |}) ps) st = Err e
  end.
Proof.
  intros Hd. induction ps as [|[time charge] ps IH]; intros k st f HR; cbn [series map pulse_loop length].
  - exists st. split; [reflexivity|]. rewrite Nat.add_0_r. exact HR.
  - unfold pulse_step. cbn [p_dom p_event p_string p_time p_charge fst snd]. replace (60 <? dom)%Z with false by (symmetry; apply Z.ltb_ge; exact Hd).
    change (event_index [0] 0) with (Ok 0). cbn [bind]. destruct (pyidx 86 (string - 1)) as [s|]; [|reflexivity]. cbn [bind].
    destruct (pyidx 60 (dom - 1)) as [d|]; [|reflexivity]. cbn [bind]. cbv zeta. replace (k + S (length ps)) with (S k + length ps) by lia. apply IH.
    destruct HR as (R1 & R2 & R3 & R4). unfold Rel. cbn [s_charge s_rows s_ids s_window t_charge t_rows t_ids t_window]. rewrite R1 by lia. split; [|split; [|split]].
    + intros e s' d' He. unfold upd. rewrite R1 by exact He. reflexivity.
    + rewrite map_setf, R2. reflexivity.
    + rewrite map_setf, R3. reflexivity.
    + rewrite setf_same, R4. reflexivity.
Qed.

Lemma frame_loop q l : Forall (fun x => (snd (fst x) <= 60)%Z) l -> forall k st f, Rel k st f ->
  match frame_pulses q l f with
  | Ok f' => exists st', pulse_loop [0] q k (table_pulses l) st = Ok st' /\ Rel (k + length (table_pulses l)) st' f'
  | Err e => pulse_loop [0] q k (table_pulses l) st = Err e
  end.
Proof.
  induction 1 as [|[[string dom] ps] l Hd HF IH]; intros k st f HR; cbn [frame_pulses].
  - exists st. split; [reflexivity|]. cbn. rewrite Nat.add_0_r. exact HR.
  - cbn [fst snd] in Hd. replace (60 <? dom)%Z with false by (symmetry; apply Z.ltb_ge; exact Hd). unfold table_pulses. cbn [flat_map fst snd]. fold (table_pulses l).
    rewrite loop_app. pose proof (series_loop q string dom ps Hd k st f HR) as HS. destruct (series q string dom ps f) as [f1|e].
    + destruct HS as (st1 & -> & HR1). cbn [bind]. rewrite map_length, app_length, map_length, Nat.add_assoc. apply IH. exact HR1.
    + rewrite HS. reflexivity.
Qed.

Lemma series_ids q string dom ps : forall f f', series q string dom ps f = Ok f' -> length (t_ids f') = length (t_ids f) + length ps.
Proof.
  induction ps as [|[time charge] ps IH]; intros f f' H; cbn [series] in H; [injection H as <-; cbn; lia|].
  apply bind_ok in H. destruct H as (s & _ & H). apply bind_ok in H. destruct H as (d & _ & H). apply IH in H. rewrite H. cbn [t_ids length]. rewrite app_length. cbn. lia.
Qed.

Lemma tw_table l : Forall (fun x => (snd (fst x) <= 60)%Z) l -> forall k st, exists st', tw_loop [0] k (table_times l) st = Ok st' /\
  (forall i, i < k -> fst st' i = fst st i /\ snd st' i = snd st i) /\
  map (fst st') (seq k (length (table_times l))) = fst (frame_times l) /\ map (snd st') (seq k (length (table_times l))) = snd (frame_times l).
Proof.
  intros HF.
  assert (HA : forall a b k st, tw_loop [0] k (a ++ b) st = bind (tw_loop [0] k a st) (fun st' => tw_loop [0] (k + length a) b st')).
  { induction a as [|w a IH]; intros b k st; cbn [app tw_loop length]; [rewrite Nat.add_0_r; reflexivity|].
    replace (k + S (length a)) with (S k + length a) by lia. destruct (60 <? w_dom w)%Z; [apply IH|]. destruct (event_index [0] (w_event w)); [|reflexivity]. cbn [bind]. apply IH. }
  assert (HS : forall string dom ws, (dom <= 60)%Z -> forall k st, exists st',
    tw_loop [0] k (map (fun w => {| w_event := 0; w_string := string; w_dom := dom; w_start := fst w; w_stop := snd w |}) ws) st = Ok st' /\
    (forall i, i < k -> fst st' i = fst st i /\ snd st' i = snd st i) /\
    map (fst st') (seq k (length ws)) = ws /\ map (snd st') (seq k (length ws)) = map (fun _ => (0, string - 1, dom - 1)%Z) ws).
  { intros string dom ws Hd. induction ws as [|[a b] ws IH]; intros k st; cbn [map tw_loop length].
    - exists st. split; [reflexivity|]. split; [auto|]. split; reflexivity.
    - cbn [w_dom w_event w_string w_start w_stop fst snd]. replace (60 <? dom)%Z with false by (symmetry; apply Z.ltb_ge; exact Hd).
      change (event_index [0] 0) with (Ok 0). cbn [bind]. destruct (IH (S k) (setf (fst st) k (a, b), setf (snd st) k (Z.of_nat 0, (string - 1)%Z, (dom - 1)%Z))) as (st' & E & HB & H1 & H2).
      exists st'. split; [exact E|]. cbn [seq map]. rewrite H1, H2. destruct (HB k ltac:(lia)) as [-> ->]. cbn [fst snd]. rewrite !setf_same. split; [|split; reflexivity].
      intros i Hi. destruct (HB i ltac:(lia)) as [-> ->]. cbn [fst snd]. rewrite !setf_other by lia. auto. }
  induction HF as [|[[string dom] ws] l Hd HF IH]; intros k st.
  - exists st. split; [reflexivity|]. split; [auto|]. split; reflexivity.
  - cbn [fst snd] in Hd. unfold table_times. cbn [flat_map fst snd]. fold (table_times l). rewrite HA. destruct (HS string dom ws Hd k st) as (st1 & -> & HB & H1 & H2). cbn [bind].
    rewrite map_length. destruct (IH (k + length ws) st1) as (st' & E & HB' & H1' & H2'). exists st'. split; [exact E|].
    cbn [frame_times]. replace (60 <? dom)%Z with false by (symmetry; apply Z.ltb_ge; exact Hd). cbn [fst snd]. rewrite app_length, map_length, seq_app, !map_app, H1', H2'.
    assert (HE : forall i, In i (seq k (length ws)) -> fst st' i = fst st1 i /\ snd st' i = snd st1 i) by (intros i Hi; apply in_seq in Hi; apply HB'; lia).
    rewrite (map_ext_in _ (fst st1)) by (intros i Hi; apply HE; exact Hi). rewrite (map_ext_in (snd st') (snd st1)) by (intros i Hi; apply HE; exact Hi).
    rewrite H1, H2. split; [|split; reflexivity]. intros i Hi. destruct (HB' i ltac:(lia)) as [-> ->]. apply HB. exact Hi.
Qed.

Lemma dom_table l : forall g, dom_loop [0] (table_doms l) g = frame_doms l g.
Proof.
  induction l as [|[string dom] l IH]; intros g; [reflexivity|]. unfold table_doms. cbn [map dom_loop frame_doms fst snd m_dom m_event m_string]. fold (table_doms l).
  destruct (60 <? dom)%Z; [apply IH|]. change (event_index [0] 0) with (Ok 0). cbn [bind]. destruct (pyidx 86 (string - 1)); [|reflexivity]. cbn [bind].
  destruct (pyidx 60 (dom - 1)); [|reflexivity]. cbn [bind]. apply IH.
Qed.

(** ** Inversion of the reader *)

Definition no_drop (c : pconfig) (f : hfile) : Prop := discard c = false \/ dom_key c = false \/ f_doms f = None.

Lemma read_hdf_ok bad c j f r : read_hdf bad c j f = Ok (Some r) -> exists ps labels st rows,
  f_pulses f = Some ps /\ f_labels f = Some labels /\ pulse_loop labels (quant c) 0 ps (initial (j_rows j) (j_ids j)) = Ok st /\
  (if quant c then divide (length labels) (s_charge st) (map (s_ids st) (seq 0 (length ps))) (map (s_rows st) (seq 0 (length ps))) = Ok rows
   else rows = map (s_rows st) (seq 0 (length ps))) /\
  o_size r = length labels /\ o_charge r = s_charge st /\ o_window r = s_window st /\
  (no_drop c f -> o_pulses r = rows /\ o_ids r = map (s_ids st) (seq 0 (length ps))) /\
  (~ no_drop c f -> exists ms g, f_doms f = Some ms /\ dom_loop labels ms (fun _ s d => bad s d) = Ok g /\ o_excl r = Some g /\
     drop_excluded (length labels) g (map (s_ids st) (seq 0 (length ps))) rows = Ok (o_pulses r, o_ids r)).
Proof.
  unfold read_hdf. destruct (f_pulses f) as [ps|]; [|discriminate]. destruct (f_labels f) as [labels|]; [|discriminate]. cbv zeta.
  destruct (time_key c && _); [discriminate|]. intros H. apply bind_ok in H. destruct H as (st & E1 & H). apply bind_ok in H. destruct H as (rows & E2 & H).
  apply bind_ok in H. destruct H as (tw & E3 & H). apply bind_ok in H. destruct H as ([[g rows'] ids'] & E4 & H). injection H as <-.
  exists ps, labels, st, rows. cbn [o_size o_charge o_window o_pulses o_ids o_excl]. repeat (split; [reflexivity || assumption|]).
  split; [destruct (quant c); [exact E2|injection E2 as <-; reflexivity]|]. repeat (split; [reflexivity|]). unfold no_drop. destruct (dom_key c).
  - destruct (f_doms f) as [ms|].
    + apply bind_ok in E4. destruct E4 as (g1 & E5 & E4). destruct (discard c).
      * apply bind_ok in E4. destruct E4 as ([rr ii] & E6 & E4). injection E4 as <- <- <-. split; [intros [H|[H|H]]; discriminate|]. intros _. exists ms, g1. auto.
      * injection E4 as <- <- <-. split; [auto|]. intros H. exfalso. apply H. left. reflexivity.
    + injection E4 as <- <- <-. split; [auto|]. intros H. exfalso. apply H. auto.
  - injection E4 as <- <- <-. split; [auto|]. intros H. exfalso. apply H. auto.
Qed.

(** ** Any numbers *)

Lemma event_index_nth labels x e : event_index labels x = Ok e -> nth_error labels e = Some x.
Proof.
  unfold event_index. intros H. assert (HF : forall l k f m, find_event l k x f = Some m -> f = Some m \/ (k <= m /\ nth_error l (m - k) = Some x)).
  { induction l as [|y l IH]; intros k f m E; [auto|]. cbn [find_event] in E. apply IH in E. destruct E as [E|[E1 E2]].
    - destruct (Nat.eqb_spec y x) as [->|]; [|auto]. injection E as <-. right. split; [lia|]. rewrite Nat.sub_diag. reflexivity.
    - right. split; [lia|]. replace (m - k) with (S (m - S k)) by lia. exact E2. }
  destruct (find_event labels 0 x None) as [m|] eqn:E; [|discriminate]. injection H as <-. apply HF in E. destruct E as [E|[_ E]]; [discriminate|].
  rewrite Nat.sub_0_r in E. exact E.
Qed.

Lemma loop_wrapped labels q ps : NoDup labels -> forall k st st', pulse_loop labels q k ps st = Ok st' ->
  Forall (Accepted labels) ps /\
  forall e s d, s < 86 -> d < 60 -> s_charge st' e s d = (s_charge st e s d + Rsum (map p_charge (filter (hits_wrapped labels e s d) ps)))%R.
Proof.
  intros HN. induction ps as [|p ps IH]; intros k st st' H; cbn [pulse_loop] in H.
  - injection H as <-. split; [constructor|]. intros e s d _ _. cbn. lra.
  - apply bind_ok in H. destruct H as (st1 & H1 & H). destruct (IH _ _ _ H) as [HF HC]. unfold pulse_step in H1. destruct (Z.ltb_spec 60 (p_dom p)) as [Hd|Hd].
    + injection H1 as <-. split; [constructor; [intros Hx; lia|exact HF]|]. intros e s d Hs Hdd. rewrite (HC e s d Hs Hdd). cbn [filter]. unfold hits_wrapped at 2.
      replace (p_dom p <=? 60)%Z with false by (symmetry; apply Z.leb_gt; lia). rewrite andb_false_r. cbn [andb]. reflexivity.
    + apply bind_ok in H1. destruct H1 as (e0 & E1 & H1). apply bind_ok in H1. destruct H1 as (s0 & E2 & H1). apply bind_ok in H1. destruct H1 as (d0 & E3 & H1).
      cbv zeta in H1. apply event_index_nth in E1. apply pyidx_iff in E2; [|lia]. apply pyidx_iff in E3; [|lia]. change (Z.of_nat 86) with 86%Z in E2. change (Z.of_nat 60) with 60%Z in E3.
      split; [constructor; [|exact HF]; intros _; split; [eapply nth_error_In; exact E1|lia]|].
      intros e s d Hs Hdd. rewrite (HC e s d Hs Hdd). injection H1 as <-. cbn [s_charge filter].
      assert (EH : hits_wrapped labels e s d p = true <-> (e0, s0, d0) = (e, s, d)).
      { unfold hits_wrapped. replace (p_dom p <=? 60)%Z with true by (symmetry; apply Z.leb_le; lia). rewrite andb_true_r, !andb_true_iff, !Z.eqb_eq. split.
        - intros [[A B] C]. destruct (nth_error labels e) as [i|] eqn:Ee; [|discriminate]. apply Nat.eqb_eq in A. subst i.
          assert (e0 = e) by (apply (proj1 (NoDup_nth_error labels) HN); [apply nth_error_Some; congruence|congruence]).
          assert (s0 = s) by lia. assert (d0 = d) by lia. congruence.
        - intros E. injection E as <- <- <-. rewrite E1, Nat.eqb_refl. split; [split; [reflexivity|]|]; lia. }
      destruct (hits_wrapped labels e s d p) eqn:EB.
      * assert (X : (e0, s0, d0) = (e, s, d)) by (apply EH; reflexivity). injection X as -> -> ->. rewrite upd_same. cbn [map]. rewrite Rsum_cons. lra.
      * rewrite upd_other; [reflexivity|]. intros X. assert (Y : (e0, s0, d0) = (e, s, d)) by congruence. apply EH in Y. discriminate.
Qed.

Lemma loop_accepts labels q ps : NoDup labels -> Forall (Accepted labels) ps -> forall k st, exists st', pulse_loop labels q k ps st = Ok st'.
Proof.
  intros HN. induction 1 as [|p ps HA HF IH]; intros k st; cbn [pulse_loop]; [eauto|]. unfold pulse_step. destruct (Z.ltb_spec 60 (p_dom p)) as [Hd|Hd]; [cbn [bind]; apply IH|].
  destruct (HA Hd) as (He & Hs & Hd1). destruct (event_index_in _ _ HN He) as (e & _ & ->). cbn [bind].
  assert (E2 : pyidx 86 (p_string p - 1) = Ok (Z.to_nat ((p_string p - 1) mod 86))).
  { apply pyidx_iff; [lia|]. change (Z.of_nat 86) with 86%Z. pose proof (Z.mod_pos_bound (p_string p - 1) 86). lia. }
  assert (E3 : pyidx 60 (p_dom p - 1) = Ok (Z.to_nat ((p_dom p - 1) mod 60))).
  { apply pyidx_iff; [lia|]. change (Z.of_nat 60) with 60%Z. pose proof (Z.mod_pos_bound (p_dom p - 1) 60). lia. }
  rewrite E2. cbn [bind]. rewrite E3. cbn [bind]. apply IH.
Qed.

(** ** Time windows *)

Lemma tw_loop_rows labels ws : Forall (fun w => (w_dom w <= 60)%Z) ws -> forall k st st', tw_loop labels k ws st = Ok st' ->
  (forall i, i < k -> fst st' i = fst st i /\ snd st' i = snd st i) /\
  forall i w, nth_error ws i = Some w -> window_row labels w (fst st' (k + i)) (snd st' (k + i)).
Proof.
  induction 1 as [|w ws Hw HF IH]; intros k st st' H; cbn [tw_loop] in H.
  - injection H as <-. split; [auto|]. intros i w E. destruct i; discriminate.
  - replace (60 <? w_dom w)%Z with false in H by (symmetry; apply Z.ltb_ge; exact Hw). apply bind_ok in H. destruct H as (e & Ee & H). apply event_index_nth in Ee.
    apply IH in H. destruct H as [HB HR]. split.
    + intros i Hi. destruct (HB i ltac:(lia)) as [-> ->]. cbn [fst snd]. rewrite !setf_other by lia. auto.
    + intros [|i] w' E; cbn in E.
      * injection E as <-. rewrite Nat.add_0_r. destruct (HB k ltac:(lia)) as [-> ->]. cbn [fst snd]. rewrite !setf_same. split; [reflexivity|]. exists e. auto.
      * replace (k + S i) with (S k + i) by lia. apply HR. exact E.
Qed.

Lemma frame_times_eq l : frame_times l =
  (flat_map snd (filter (fun x => (snd (fst x) <=? 60)%Z) l),
   flat_map (fun x => map (fun _ => (0, fst (fst x) - 1, snd (fst x) - 1)%Z) (snd x)) (filter (fun x => (snd (fst x) <=? 60)%Z) l)).
Proof.
  induction l as [|[[s d] ws] l IH]; [reflexivity|]. cbn [frame_times filter fst snd]. rewrite IH.
  destruct (Z.ltb_spec 60 d); destruct (Z.leb_spec d 60); try lia; reflexivity.
Qed.

(** ** Sums over cells *)

Lemma Rsum_none {A} (f : A -> bool) v cs : (forall x, In x cs -> f x = false) -> Rsum (map (fun x => if f x then v else 0%R) cs) = 0%R.
Proof.
  intros H. rewrite (Rsum_map_ext _ (fun _ => 0%R)) by (intros x Hx; rewrite H by exact Hx; reflexivity). rewrite Rsum_map_const. lra.
Qed.

Lemma Rsum_indicator {A} (f : A -> bool) v x0 cs : NoDup cs -> In x0 cs -> (forall x, In x cs -> f x = true <-> x = x0) ->
  Rsum (map (fun x => if f x then v else 0%R) cs) = v.
Proof.
  induction 1 as [|x cs Hx HN IH]; intros Hin HX; [destruct Hin|]. cbn [map]. rewrite Rsum_cons. destruct Hin as [->|Hin].
  - rewrite (proj2 (HX x0 (or_introl eq_refl)) eq_refl), Rsum_none; [lra|]. intros y Hy. destruct (f y) eqn:E; [|reflexivity].
    apply HX in E; [|right; exact Hy]. congruence.
  - rewrite IH; [|exact Hin|intros y Hy; apply HX; right; exact Hy]. destruct (f x) eqn:E; [|lra]. apply HX in E; [|left; reflexivity]. congruence.
Qed.

Lemma NoDup_prod {A B} (a : list A) (b : list B) : NoDup a -> NoDup b -> NoDup (list_prod a b).
Proof.
  intros Ha Hb. induction Ha as [|x a Hx Ha IH]; [constructor|]. cbn [list_prod].
  assert (HA : forall (u v : list (A * B)), NoDup u -> NoDup v -> (forall y, In y u -> ~ In y v) -> NoDup (u ++ v)).
  { induction u as [|y u IHu]; intros v Nu Nv Hd; [exact Nv|]. inversion Nu; subst. cbn. constructor.
    - intros H. apply in_app_or in H. destruct H as [H|H]; [contradiction|]. exact (Hd y (or_introl eq_refl) H).
    - apply IHu; [assumption|assumption|]. intros z Hz. apply Hd. right. exact Hz. }
  apply HA; [|exact IH|].
  - clear - Hb. induction Hb as [|y b Hy Hb IH]; [constructor|]. cbn. constructor; [|exact IH]. intros H. apply in_map_iff in H. destruct H as (z & E & Hz). congruence.
  - intros y Hy Hy'. apply in_map_iff in Hy. destruct Hy as (z & <- & _). apply in_prod_iff in Hy'. tauto.
Qed.

Lemma NoDup_cells size : NoDup (cells size).
Proof. unfold cells. apply NoDup_prod; [apply NoDup_prod|]; apply seq_NoDup. Qed.

Lemma in_cells size e s d : In (e, s, d) (cells size) <-> e < size /\ s < 86 /\ d < 60.
Proof. unfold cells. rewrite !in_prod_iff, !in_seq. lia. Qed.

(** ** Charges of positive pulses *)

Lemma charge_nonneg labels ps e s d : (forall p, In p ps -> 0 <= p_charge p)%R -> (0 <= charge_of labels ps e s d)%R.
Proof. intros H. apply Rsum_nonneg, Forall_forall. intros x Hx. apply in_map_iff in Hx. destruct Hx as (p & <- & Hp). apply filter_In in Hp. apply H. tauto. Qed.

Lemma charge_app labels a b e s d : charge_of labels (a ++ b) e s d = (charge_of labels a e s d + charge_of labels b e s d)%R.
Proof. unfold charge_of. rewrite filter_app, map_app, Rsum_app. reflexivity. Qed.

Lemma charge_prefix labels ps i k e s d : (forall p, In p ps -> 0 <= p_charge p)%R -> i <= k ->
  (charge_of labels (firstn i ps) e s d <= charge_of labels (firstn k ps) e s d)%R.
Proof.
  intros H Hik. rewrite <- (firstn_skipn i (firstn k ps)), firstn_firstn. replace (Nat.min i k) with i by lia. rewrite charge_app.
  pose proof (charge_nonneg labels (skipn i (firstn k ps)) e s d) as H1. assert (0 <= charge_of labels (skipn i (firstn k ps)) e s d)%R; [|lra].
  apply H1. intros p Hp. apply H. assert (In p (firstn k ps)) by (rewrite <- (firstn_skipn i (firstn k ps)); apply in_or_app; right; exact Hp).
  rewrite <- (firstn_skipn k ps). apply in_or_app. left. assumption.
Qed.

Lemma charge_none labels ps e s d : (forall p, In p ps -> hits labels e s d p = false) -> charge_of labels ps e s d = 0%R.
Proof.
  intros H. unfold charge_of. replace (filter (hits labels e s d) ps) with (@nil pulse); [reflexivity|]. symmetry. induction ps as [|p ps IH]; [reflexivity|].
  cbn. rewrite H by (left; reflexivity). apply IH. intros x Hx. apply H. right. exact Hx.
Qed.

Lemma firstn_snoc {A} (l : list A) k x : nth_error l k = Some x -> firstn (S k) l = firstn k l ++ [x].
Proof. revert l. induction k as [|k IH]; intros [|y l] H; cbn in *; try discriminate; [congruence|]. f_equal. apply IH. exact H. Qed.
