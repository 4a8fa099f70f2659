(** Lemmas on batches and datasets. *)
From Coq Require Import Lia.
From Verif Require Import Py PyFacts M_Tensor M_Batch M_Handler M_Dataset S_Dataset.

Lemma bind_ok {A B} (r : result A) (k : A -> result B) (b : B) : bind r k = Ok b -> exists a : A, r = Ok a /\ k a = Ok b.
Proof. destruct r as [a|e]; cbn; intros H; [exists a; auto|discriminate]. Qed.

Definition AllI {A} (Q : nat -> A -> Prop) (l : list A) : Prop := forall i x, nth_error l i = Some x -> Q i x.
Lemma AllI_cons {A} (Q : nat -> A -> Prop) x l : AllI Q (x :: l) <-> Q 0 x /\ AllI (fun i => Q (S i)) l.
Proof.
  split.
  - intros H. split; [apply (H 0); reflexivity|]. intros i y Hy. apply (H (S i)). exact Hy.
  - intros [H1 H2] [|i] y Hy; [injection Hy as <-; exact H1|apply H2; exact Hy].
Qed.
Lemma AllI_nil {A} (Q : nat -> A -> Prop) : AllI Q [].
Proof. intros [|i] x H; discriminate. Qed.

Lemma nth_upd {A} (l : list A) : forall i j x, nth_error (upd i x l) j = if Nat.eqb i j then match nth_error l j with Some _ => Some x | None => None end else nth_error l j.
Proof. induction l as [|y l IH]; intros [|i] [|j] x; cbn; try reflexivity; [destruct (Nat.eqb i j); reflexivity|apply IH]. Qed.

Lemma select_in {A} mask : forall (l : list A) x, In x (select mask l) -> In x l.
Proof.
  induction mask as [|b mask IH]; intros [|y l] x H; cbn in H; try (destruct H; fail). destruct b; [destruct H as [<-|H]; [left; reflexivity|]|]; right; apply IH; exact H.
Qed.

Definition GoodRows {V} (P : nat -> V -> Prop) (i : nat) (l : list (row V)) : Prop := Forall (fun r => P i (snd r)) l.
Definition GoodColumn {V} (P : nat -> V -> Prop) (i : nat) (c : column V) : Prop := forall d, In (Some d) c -> GoodRows P i (all_rows d).
Definition GoodData {V} (P : nat -> V -> Prop) (M : nat -> Prop) (data : batch V) : Prop :=
  forall i o, nth_error data i = Some o -> match o with Some d => GoodRows P i (all_rows d) | None => M i end.
Definition GoodCells {V} (P : nat -> V -> Prop) (i : nat) (cs : list (cell V)) : Prop :=
  Forall (fun x => match x with CRows l => GoodRows P i l | CScalar => True end) cs.
Definition GoodPart {V} (P : nat -> V -> Prop) (M : nat -> Prop) (i : nat) (cs : list (cell V)) : Prop :=
  Forall (fun x => match x with CRows l => GoodRows P i l | CScalar => M i end) cs.
Definition Flags (M : nat -> Prop) (ex : list bool) : Prop := AllI (fun i e => e = false -> M i) ex.

Section Rows.
Variable V : Type.
Variable zero : row V.
Definition GoodOut (P : nat -> V -> Prop) (M : nat -> Prop) (i : nat) (col : list (row V)) : Prop :=
  GoodRows P i col \/ (M i /\ Forall (fun r => r = zero) col).

Lemma GoodRows_incl (P : nat -> V -> Prop) i l l' : incl l l' -> GoodRows P i l' -> GoodRows P i l.
Proof. intros H G. unfold GoodRows in *. rewrite Forall_forall in *. intros x Hx. apply G, H, Hx. Qed.

Lemma batch_to_event_in v idx n ve ie : batch_to_event V v idx n = Ok (ve, ie) ->
  (forall l, In l ve -> incl l (all_rows v)) /\ (forall l, In l ie -> incl l (all_rows idx)).
Proof.
  destruct n as [|n]; cbn [batch_to_event]; [intros [= <- <-]; split; intros l []|].
  destruct v as [v|v], idx as [idx|idx]; try discriminate. destruct (Nat.eqb (length v) (length idx)); [|discriminate]. intros H.
  assert (E1 : ve = map (fun i => select (id_mask V (Z.of_nat i) idx) v) (seq 0 (S n))) by congruence.
  assert (E2 : ie = map (fun i => select (id_mask V (Z.of_nat i) idx) idx) (seq 0 (S n))) by congruence. clear H. subst.
  split; intros l Hl x Hx; apply in_map_iff in Hl; destruct Hl as (k & <- & _); cbn [all_rows]; eapply select_in; exact Hx.
Qed.

Lemma push_good (P : nat -> V -> Prop) (ev : list (column V)) i l : AllI (GoodColumn P) ev -> GoodColumn P i l ->
  AllI (GoodColumn P) (upd i (nth i ev [] ++ l) ev).
Proof.
  intros H Hl j c Hj. rewrite nth_upd in Hj. destruct (Nat.eqb_spec i j) as [->|N]; [|apply H; exact Hj].
  destruct (nth_error ev j) as [c'|] eqn:E; [|discriminate]. injection Hj as <-. rewrite (nth_error_nth _ _ _ E).
  intros d Hd. apply in_app_iff in Hd. destruct Hd as [Hd|Hd]; [apply (H j c' E); exact Hd|apply Hl; exact Hd].
Qed.

Lemma fill_one_good P M n data ti k ex ev ex' ev' : GoodData P M data -> Flags M ex -> AllI (GoodColumn P) ev ->
  fill_one V n data ti k (ex, ev) = Ok (ex', ev') -> Flags M ex' /\ AllI (GoodColumn P) ev'.
Proof.
  intros HD HE HV H. unfold fill_one in H. destruct (nth_error data ti) as [d|] eqn:Ed; [|discriminate].
  assert (HE' : Flags M (match d with None => upd ti false ex | Some _ => ex end)).
  { destruct d as [d|]; [exact HE|]. intros j e Hj. rewrite nth_upd in Hj. destruct (Nat.eqb_spec ti j) as [->|N]; [|apply (HE j); exact Hj].
    intros _. apply (HD j None Ed). }
  cbv zeta in H. destruct k as [| |vi].
  - injection H as <- <-. split; [exact HE'|]. apply push_good; [exact HV|]. intros d' [E|[]]. subst d. apply (HD ti (Some d') Ed).
  - injection H as <- <-. split; assumption.
  - destruct (nth_error data vi) as [v|] eqn:Ev; [|discriminate]. destruct v as [v|], d as [idx|]; try discriminate.
    + destruct (batch_to_event V v idx n) as [[ve ie]|e] eqn:E; [|discriminate]. injection H as <- <-. split; [exact HE'|].
      apply batch_to_event_in in E. destruct E as [E1 E2].
      apply push_good; [apply push_good; [exact HV|]|]; intros d' Hd'; apply in_map_iff in Hd'; destruct Hd' as (l & [= <-] & Hl); cbn [all_rows].
      * eapply GoodRows_incl; [apply E1; exact Hl|]. apply (HD vi (Some v) Ev).
      * eapply GoodRows_incl; [apply E2; exact Hl|]. apply (HD ti (Some idx) Ed).
    + injection H as <- <-. split; [exact HE'|]. apply push_good; [apply push_good; [exact HV|]|]; intros d' [E|[]]; discriminate.
Qed.

Lemma fill_event_good P M n data ks : forall ti ex ev ex' ev', GoodData P M data -> Flags M ex -> AllI (GoodColumn P) ev ->
  fill_event_list V n data ti ks (ex, ev) = Ok (ex', ev') -> Flags M ex' /\ AllI (GoodColumn P) ev'.
Proof.
  induction ks as [|k ks IH]; intros ti ex ev ex' ev' HD HE HV H; cbn [fill_event_list] in H; [injection H as <- <-; split; assumption|].
  destruct (fill_one V n data ti k (ex, ev)) as [[ex1 ev1]|e] eqn:E; [|discriminate]. destruct (fill_one_good _ _ _ _ _ _ _ _ _ _ HD HE HV E).
  eapply IH; eassumption.
Qed.

Lemma fill_files_good P M ks files : forall ex ev ex' ev', (forall n data, In (n, data) files -> GoodData P M data) -> Flags M ex -> AllI (GoodColumn P) ev ->
  fill_files V ks files (ex, ev) = Ok (ex', ev') -> Flags M ex' /\ AllI (GoodColumn P) ev'.
Proof.
  induction files as [|[n data] files IH]; intros ex ev ex' ev' HD HE HV H; cbn [fill_files] in H; [injection H as <- <-; split; assumption|].
  destruct (fill_event_list V n data 0 ks (ex, ev)) as [[ex1 ev1]|e] eqn:E; [|discriminate].
  destruct (fill_event_good _ _ _ _ _ _ _ _ _ _ (HD n data (or_introl eq_refl)) HE HV E) as [A B].
  apply (IH _ _ _ _ (fun n' d' H' => HD n' d' (or_intror H')) A B H).
Qed.

Lemma concat_good P i c : forall cs, GoodColumn P i c -> concat_event_arrays V c = Ok cs -> GoodCells P i cs.
Proof.
  induction c as [|[[l|l]|] c IH]; intros cs HG H; cbn [concat_event_arrays] in H; try discriminate; [injection H as <-; constructor|].
  destruct (concat_event_arrays V c) as [cs'|e] eqn:E; [|discriminate]. injection H as <-. apply Forall_app. split.
  - pose proof (HG (Arr l) (or_introl eq_refl)) as HL. cbn [all_rows] in HL. unfold GoodRows in HL. rewrite Forall_forall in *. intros x Hx. apply in_map_iff in Hx.
    destruct Hx as (r & <- & Hr). constructor; [apply HL; exact Hr|constructor].
  - apply IH; [|reflexivity]. intros d Hd. apply HG. right. exact Hd.
Qed.
Lemma vector_good P i c : GoodColumn P i c -> GoodCells P i (vector_cells V c).
Proof.
  intros HG. apply Forall_forall. intros x Hx. apply in_map_iff in Hx. destruct Hx as (d & <- & Hd). destruct d as [[l|l]|]; try exact I. apply (HG (Arr l) Hd).
Qed.

Lemma event_cells_good ks : forall P ex ev cells, AllI (GoodColumn P) ev -> event_cells V ks ex ev = Ok cells -> AllI (GoodCells P) cells.
Proof.
  induction ks as [|k ks IH]; intros P ex ev cells HV H; cbn [event_cells] in H; [injection H as <-; apply AllI_nil|].
  destruct ex as [|b ex]; [injection H as <-; apply AllI_nil|]. destruct ev as [|c ev]; [injection H as <-; apply AllI_nil|].
  apply AllI_cons in HV. destruct HV as [Hc HV].
  assert (HC : forall cs, match k, b with TEvent, true => concat_event_arrays V c | _, _ => Ok (vector_cells V c) end = Ok cs -> GoodCells P 0 cs).
  { intros cs E. destruct k, b; try (injection E as <-; apply vector_good; exact Hc). eapply concat_good; eassumption. }
  destruct (match k, b with TEvent, true => concat_event_arrays V c | _, _ => Ok (vector_cells V c) end) as [cs|e] eqn:E; [|discriminate].
  destruct (event_cells V ks ex ev) as [rest|e] eqn:E2; [|discriminate]. injection H as <-. apply AllI_cons. split; [apply HC; reflexivity|].
  apply (IH (fun i => P (S i)) _ _ _ HV E2).
Qed.

Lemma set_id_good (P : nat -> V -> Prop) i k l : GoodRows P i l -> GoodRows P i (set_id V k l).
Proof.
  unfold GoodRows, set_id. rewrite !Forall_forall. intros H x Hx. apply in_map_iff in Hx. destruct Hx as (r & <- & Hr). apply (H r Hr).
Qed.

Lemma add_event_good ks : forall P M ex cells index size b b', Flags M ex -> AllI (GoodCells P) cells -> AllI (GoodPart P M) b ->
  add_event V ks ex cells index size b = Ok b' -> AllI (GoodPart P M) b'.
Proof.
  induction ks as [|k ks IH]; intros P M ex cells index size b b' HE HC HB H; cbn [add_event] in H; [injection H as <-; apply AllI_nil|].
  destruct ex as [|e ex]; [injection H as <-; apply AllI_nil|]. destruct cells as [|cs cells]; [injection H as <-; apply AllI_nil|].
  destruct b as [|col b]; [injection H as <-; apply AllI_nil|].
  apply AllI_cons in HE. destruct HE as [He HE]. apply AllI_cons in HC. destruct HC as [Hc HC]. apply AllI_cons in HB. destruct HB as [Hb HB].
  match type of H with match ?u with _ => _ end = _ => destruct u as [c|er] eqn:E end; [|discriminate].
  destruct (add_event V ks ex cells index size b) as [rest|er] eqn:E2; [|discriminate]. injection H as <-. apply AllI_cons. split.
  - apply Forall_app. split; [exact Hb|]. constructor; [|constructor]. destruct e; [|injection E as <-; apply He; reflexivity].
    destruct (nth_error cs index) as [x|] eqn:En; [|discriminate]. apply nth_error_In in En. unfold GoodCells in Hc. rewrite Forall_forall in Hc. specialize (Hc _ En).
    destruct x as [l|]; [|discriminate]. destruct k; injection E as <-; try exact Hc. apply set_id_good. exact Hc.
  - apply (IH (fun i => P (S i)) (fun i => M (S i)) _ _ _ _ _ _ HE HC HB E2).
Qed.

Lemma stack_good P M i c : forall l, GoodPart P M i c -> stack_rows V c = Ok l -> GoodRows P i l.
Proof.
  induction c as [|[l0|] c IH]; intros l HG H; cbn [stack_rows] in H; try discriminate; [injection H as <-; constructor|].
  destruct (stack_rows V c) as [r|e]; [|discriminate]. injection H as <-. inversion HG; subst. apply Forall_app. split; [assumption|]. apply IH; auto.
Qed.

Lemma flush_good ex : forall P M b res, Flags M ex -> AllI (GoodPart P M) b -> flush V zero ex b = Ok res -> AllI (GoodOut P M) res.
Proof.
  induction ex as [|e ex IH]; intros P M b res HE HB H; cbn [flush] in H; [injection H as <-; apply AllI_nil|].
  destruct b as [|c b]; [injection H as <-; apply AllI_nil|]. apply AllI_cons in HE. destruct HE as [He HE]. apply AllI_cons in HB. destruct HB as [Hb HB].
  destruct (flush_column V zero e c) as [l|er] eqn:E; [|discriminate]. destruct (flush V zero ex b) as [r|er] eqn:E2; [|discriminate]. injection H as <-.
  apply AllI_cons. split; [|apply (IH (fun i => P (S i)) (fun i => M (S i)) _ _ HE HB E2)].
  unfold flush_column in E. destruct e; [left; eapply stack_good; eassumption|]. destruct (forallb _ c); [|discriminate]. injection E as <-.
  right. split; [apply He; reflexivity|]. apply Forall_forall. intros x Hx. apply in_map_iff in Hx. destruct Hx as (y & <- & _). reflexivity.
Qed.

Definition GoodState P M (st : istate V) : Prop := AllI (GoodPart P M) (snd (fst st)) /\ Forall (AllI (GoodOut P M)) (snd st).
Lemma fresh_good P M {A} (ks : list A) : AllI (GoodPart P M) (map (fun _ => []) ks : list (list (cell V))).
Proof. intros i c H. apply nth_error_In, in_map_iff in H. destruct H as (k & <- & _). constructor. Qed.

Lemma batch_events_good P M bs ks ex cells indices : Flags M ex -> AllI (GoodCells P) cells -> forall st st', GoodState P M st ->
  batch_events V zero bs ks ex cells indices st = Ok st' -> GoodState P M st'.
Proof.
  intros HE HC. induction indices as [|index rest IH]; intros [[size b] out] st' [HB HO] H; cbn [batch_events] in H; [injection H as <-; split; assumption|].
  cbn [fst snd] in HB, HO. destruct (add_event V ks ex cells index size b) as [b'|e] eqn:E; [|discriminate].
  pose proof (add_event_good _ _ _ _ _ _ _ _ _ HE HC HB E) as HB'. destruct (Nat.eqb (S size) bs).
  - destruct (flush V zero ex b') as [res|e] eqn:E2; [|discriminate]. eapply IH; [|exact H]. split; cbn [fst snd]; [apply fresh_good|].
    apply Forall_app. split; [exact HO|]. constructor; [|constructor]. eapply flush_good; eassumption.
  - eapply IH; [|exact H]. split; assumption.
Qed.

Lemma batch_reps_good P M bs ks ex cells perms : Flags M ex -> AllI (GoodCells P) cells -> forall st st', GoodState P M st ->
  batch_reps V zero bs ks ex cells perms st = Ok st' -> GoodState P M st'.
Proof.
  intros HE HC. induction perms as [|p rest IH]; intros st st' HS H; cbn [batch_reps] in H; [injection H as <-; exact HS|].
  destruct (batch_events V zero bs ks ex cells p st) as [st1|e] eqn:E; [|discriminate]. eapply IH; [|exact H]. eapply batch_events_good; eassumption.
Qed.

Lemma batch_group_good P M bs ks files perms st st' ex' : (forall n data, In (n, data) files -> GoodData P M data) -> GoodState P M st ->
  batch_group V zero bs ks files perms st = Ok (st', ex') -> GoodState P M st' /\ Flags M ex'.
Proof.
  intros HD HS H. unfold batch_group in H.
  destruct (fill_files V ks files (map (fun _ => true) ks, map (fun _ => []) ks)) as [[ex ev]|e] eqn:E; [|discriminate].
  assert (A0 : Flags M (map (fun _ => true) ks)) by (intros i e Hi; apply nth_error_In, in_map_iff in Hi; destruct Hi as (k & <- & _); discriminate).
  assert (B0 : AllI (GoodColumn P) (map (fun _ => []) ks : list (column V))) by (intros i c Hi; apply nth_error_In, in_map_iff in Hi; destruct Hi as (k & <- & _); intros d []).
  destruct (fill_files_good P M ks files _ _ _ _ HD A0 B0 E) as [A B].
  destruct (event_cells V ks ex ev) as [cells|e] eqn:E2; [|discriminate]. pose proof (event_cells_good _ _ _ _ _ B E2) as HC.
  destruct (batch_reps V zero bs ks ex cells perms st) as [st1|e] eqn:E3; [|discriminate]. injection H as <- <-.
  split; [eapply batch_reps_good; eassumption|exact A].
Qed.

Lemma batch_groups_good P M bs ks groups : (forall data, FileIn groups data -> GoodData P M data) -> forall st ex out, GoodState P M st -> Flags M ex ->
  batch_groups V zero bs ks groups st ex = Ok out -> Forall (AllI (GoodOut P M)) out.
Proof.
  induction groups as [|[files perms] groups IH]; intros HD [[size b] out0] ex out HS HE H; cbn [batch_groups] in H.
  - destruct HS as [HB HO]. cbn [fst snd] in HB, HO. destruct size; [injection H as <-; exact HO|].
    destruct (flush V zero ex b) as [res|e] eqn:E; [|discriminate]. injection H as <-. apply Forall_app. split; [exact HO|]. constructor; [|constructor].
    eapply flush_good; eassumption.
  - destruct (batch_group V zero bs ks files perms (size, b, out0)) as [[st' ex']|e] eqn:E; [|discriminate].
    assert (HF : forall n data, In (n, data) files -> GoodData P M data).
    { intros n data Hn. apply HD. exists (files, perms), n. split; [left; reflexivity|exact Hn]. }
    destruct (batch_group_good P M bs ks files perms _ _ _ HF HS E) as [A B].
    eapply IH; [|exact A|exact B|exact H]. intros data (g & n & Hg & Hn). apply HD. exists g, n. split; [right; exact Hg|exact Hn].
Qed.

Lemma run_batching_good P bs ks groups out : AllRows P groups -> run_batching V zero bs ks groups = Ok out ->
  Forall (AllI (GoodOut P (Lacking groups))) out.
Proof.
  intros HR H. unfold run_batching in H. refine (batch_groups_good P (Lacking groups) bs ks groups _ (0, map (fun _ => []) ks, []) _ _ _ _ H); [|split; [apply fresh_good|constructor]|].
  - intros data Hd i [d|] Hi; [|exists data; split; assumption]. apply Forall_forall. intros r Hr. eapply HR; eassumption.
  - intros i e Hi. apply nth_error_In, in_map_iff in Hi. destruct Hi as (k & <- & _). discriminate.
Qed.

(** ** Lengths *)
Lemma upd_length {A} (l : list A) : forall i x, length (upd i x l) = length l.
Proof. induction l as [|y l IH]; intros [|i] x; cbn; congruence. Qed.
Lemma fill_one_length n data ti k ex ev ex' ev' : fill_one V n data ti k (ex, ev) = Ok (ex', ev') -> length ex' = length ex /\ length ev' = length ev.
Proof.
  intros H. unfold fill_one in H. destruct (nth_error data ti) as [d|]; [|discriminate]. cbv zeta in H.
  assert (L : length (match d with None => upd ti false ex | Some _ => ex end) = length ex) by (destruct d; [reflexivity|apply upd_length]).
  destruct k as [| |vi]; [injection H as <- <-; rewrite upd_length; auto|injection H as <- <-; auto|].
  destruct (nth_error data vi) as [[v|]|], d as [idx|]; try discriminate.
  - destruct (batch_to_event V v idx n) as [[ve ie]|e]; [|discriminate]. injection H as <- <-. rewrite !upd_length. auto.
  - injection H as <- <-. rewrite !upd_length. auto.
Qed.
Lemma fill_event_length n data ks : forall ti ex ev ex' ev', fill_event_list V n data ti ks (ex, ev) = Ok (ex', ev') -> length ex' = length ex /\ length ev' = length ev.
Proof.
  induction ks as [|k ks IH]; intros ti ex ev ex' ev' H; cbn [fill_event_list] in H; [injection H as <- <-; auto|].
  destruct (fill_one V n data ti k (ex, ev)) as [[ex1 ev1]|e] eqn:E; [|discriminate]. apply fill_one_length in E. apply IH in H. destruct E, H. split; congruence.
Qed.
Lemma fill_files_length ks files : forall ex ev ex' ev', fill_files V ks files (ex, ev) = Ok (ex', ev') -> length ex' = length ex /\ length ev' = length ev.
Proof.
  induction files as [|[n data] files IH]; intros ex ev ex' ev' H; cbn [fill_files] in H; [injection H as <- <-; auto|].
  destruct (fill_event_list V n data 0 ks (ex, ev)) as [[ex1 ev1]|e] eqn:E; [|discriminate]. apply fill_event_length in E. apply IH in H. destruct E, H. split; congruence.
Qed.
Lemma event_cells_length ks : forall ex ev cells, length ex = length ks -> length ev = length ks -> event_cells V ks ex ev = Ok cells -> length cells = length ks.
Proof.
  induction ks as [|k ks IH]; intros ex ev cells H1 H2 H; cbn [event_cells] in H; [injection H as <-; reflexivity|].
  destruct ex as [|b ex]; [discriminate|]. destruct ev as [|c ev]; [discriminate|].
  match type of H with match ?u with _ => _ end = _ => destruct u as [cs|er] end; [|discriminate].
  destruct (event_cells V ks ex ev) as [rest|er] eqn:E; [|discriminate]. injection H as <-. cbn. f_equal. apply (IH ex ev); auto.
Qed.
Lemma add_event_length ks : forall ex cells index size b b', length ex = length ks -> length cells = length ks -> length b = length ks ->
  add_event V ks ex cells index size b = Ok b' -> length b' = length ks.
Proof.
  induction ks as [|k ks IH]; intros ex cells index size b b' H1 H2 H3 H; cbn [add_event] in H; [injection H as <-; reflexivity|].
  destruct ex as [|e ex]; [discriminate|]. destruct cells as [|cs cells]; [discriminate|]. destruct b as [|col b]; [discriminate|].
  match type of H with match ?u with _ => _ end = _ => destruct u as [c|er] end; [|discriminate].
  destruct (add_event V ks ex cells index size b) as [rest|er] eqn:E; [|discriminate]. injection H as <-. cbn. f_equal. apply (IH ex cells index size b); auto.
Qed.
Lemma flush_length ex : forall b res, length b = length ex -> flush V zero ex b = Ok res -> length res = length ex.
Proof.
  induction ex as [|e ex IH]; intros [|c b] res HL H; try discriminate; cbn [flush] in H; [injection H as <-; reflexivity|].
  destruct (flush_column V zero e c) as [l|er]; [|discriminate]. destruct (flush V zero ex b) as [r|er] eqn:E; [|discriminate]. injection H as <-. cbn. f_equal.
  apply (IH b); auto.
Qed.
Definition LongState n (st : istate V) : Prop := length (snd (fst st)) = n /\ Forall (fun b => length b = n) (snd st).
Lemma batch_events_length bs ks ex cells indices : length ex = length ks -> length cells = length ks -> forall st st', LongState (length ks) st ->
  batch_events V zero bs ks ex cells indices st = Ok st' -> LongState (length ks) st'.
Proof.
  intros H1 H2. induction indices as [|index rest IH]; intros [[size b] out] st' [HB HO] H; cbn [batch_events] in H; [injection H as <-; split; assumption|].
  cbn [fst snd] in HB, HO. destruct (add_event V ks ex cells index size b) as [b'|e] eqn:E; [|discriminate].
  pose proof (add_event_length _ _ _ _ _ _ _ H1 H2 HB E) as HB'. destruct (Nat.eqb (S size) bs).
  - destruct (flush V zero ex b') as [res|e] eqn:E2; [|discriminate]. eapply IH; [|exact H]. split; cbn [fst snd]; [apply map_length|].
    apply Forall_app. split; [exact HO|]. constructor; [|constructor]. rewrite <- H1. eapply flush_length; [|eassumption]. congruence.
  - eapply IH; [|exact H]. split; assumption.
Qed.
Lemma batch_reps_length bs ks ex cells perms : length ex = length ks -> length cells = length ks -> forall st st', LongState (length ks) st ->
  batch_reps V zero bs ks ex cells perms st = Ok st' -> LongState (length ks) st'.
Proof.
  intros H1 H2. induction perms as [|p rest IH]; intros st st' HS H; cbn [batch_reps] in H; [injection H as <-; exact HS|].
  destruct (batch_events V zero bs ks ex cells p st) as [st1|e] eqn:E; [|discriminate]. eapply IH; [|exact H]. eapply batch_events_length; eassumption.
Qed.
Lemma batch_groups_length bs ks groups : forall st ex out, LongState (length ks) st -> length ex = length ks ->
  batch_groups V zero bs ks groups st ex = Ok out -> Forall (fun b => length b = length ks) out.
Proof.
  induction groups as [|[files perms] groups IH]; intros [[size b] out0] ex out HS HE H; cbn [batch_groups] in H.
  - destruct HS as [HB HO]. cbn [fst snd] in HB, HO. destruct size; [injection H as <-; exact HO|].
    destruct (flush V zero ex b) as [res|e] eqn:E; [|discriminate]. injection H as <-. apply Forall_app. split; [exact HO|]. constructor; [|constructor].
    rewrite <- HE. eapply flush_length; [|eassumption]. congruence.
  - destruct (batch_group V zero bs ks files perms (size, b, out0)) as [[st' ex']|e] eqn:E; [|discriminate]. unfold batch_group in E.
    destruct (fill_files V ks files (map (fun _ => true) ks, map (fun _ => []) ks)) as [[ex1 ev]|e] eqn:E1; [|discriminate].
    apply fill_files_length in E1. rewrite !map_length in E1. destruct E1 as [L1 L2].
    destruct (event_cells V ks ex1 ev) as [cells|e] eqn:E2; [|discriminate]. pose proof (event_cells_length _ _ _ _ L1 L2 E2) as L3.
    destruct (batch_reps V zero bs ks ex1 cells perms (size, b, out0)) as [st1|e] eqn:E3; [|discriminate]. injection E as <- <-.
    eapply IH; [|exact L1|exact H]. eapply batch_reps_length; eassumption.
Qed.
Lemma run_batching_length bs ks groups out : run_batching V zero bs ks groups = Ok out -> Forall (fun b => length b = length ks) out.
Proof.
  intros H. unfold run_batching in H. eapply batch_groups_length; [| |exact H]; [split; [apply map_length|constructor]|apply map_length].
Qed.
End Rows.

(** ** Declared shapes *)
Lemma shape_axes_ints dims : Forall (fun z => (0 <= z)%Z) dims -> shape_axes (map VInt dims) = Ok (map Some dims).
Proof. induction 1 as [|z dims Hz _ IH]; [reflexivity|]. cbn [map shape_axes]. destruct (Z.ltb_spec z 0); [lia|]. cbn [bind]. rewrite IH. reflexivity. Qed.
Lemma tensor_shape_declared t dims : declared t dims -> tensor_shape (t_shape t) = Ok (Some (None :: map Some dims)).
Proof. intros [[->| ->] H]; cbn [tensor_shape shape_axes bind]; rewrite shape_axes_ints by exact H; reflexivity. Qed.
Lemma axes_fit_iff dims : forall ds, axes_fit (map Some dims) ds = true <-> ds = dims.
Proof.
  induction dims as [|z dims IH]; intros [|n ds]; cbn; try (split; [discriminate|intros H; discriminate H]); [split; reflexivity|].
  rewrite andb_true_iff, Z.eqb_eq, IH. split; [intros [-> ->]; reflexivity|intros H; injection H; auto].
Qed.
Lemma dims_refl (d : list Z) : list_eqb Z.eqb d d = true.
Proof. apply list_eqb_refl. apply Forall_forall. intros x _. apply Z.eqb_refl. Qed.
Lemma output_shapes_nth tf_has ts : forall shapes, output_shapes tf_has ts = Ok shapes -> length shapes = length ts /\
  forall i t, nth_error ts i = Some t -> exists s, nth_error shapes i = Some s /\ (if truthy (t_exists t) then tensor_shape (t_shape t) else Ok None) = Ok s.
Proof.
  induction ts as [|t ts IH]; intros shapes H; cbn [output_shapes] in H; [injection H as <-; split; [reflexivity|intros [|i] t Hi; discriminate]|].
  destruct (tf_has (t_dtype t)); [|discriminate]. cbn [negb] in H. apply bind_ok in H. destruct H as (s & Hs & H). apply bind_ok in H. destruct H as (ss & Hss & H).
  injection H as <-. destruct (IH ss Hss) as [L N]. split; [cbn; congruence|]. intros [|i] t' Hi; [injection Hi as <-; exists s; auto|apply N; exact Hi].
Qed.
Lemma element_fits_nth {C} shapes : forall b : list (list (row (entry_row C))), length b = length shapes ->
  (forall i s rows, nth_error shapes i = Some s -> nth_error b i = Some rows -> array_fits C s rows = true) -> element_fits C shapes b = true.
Proof.
  induction shapes as [|s shapes IH]; intros [|rows b] HL H; try discriminate; [reflexivity|]. cbn [element_fits]. rewrite (H 0 s rows eq_refl eq_refl). cbn [andb].
  apply IH; [injection HL; auto|]. intros i s' rows' Hs Hr. apply (H (S i)); assumption.
Qed.
Lemma element_fits_inv {C} shapes : forall b : list (list (row (entry_row C))), element_fits C shapes b = true -> length b = length shapes /\
  forall i s rows, nth_error shapes i = Some s -> nth_error b i = Some rows -> array_fits C s rows = true.
Proof.
  induction shapes as [|s shapes IH]; intros [|rows b] H; cbn [element_fits] in H; try discriminate; [split; [reflexivity|intros [|i] s rows Hs; discriminate]|].
  apply andb_prop in H. destruct H as [H1 H2]. destruct (IH b H2) as [L N]. split; [cbn; congruence|].
  intros [|i] s' rows' Hs Hr; [injection Hs as <-; injection Hr as <-; exact H1|eapply N; eassumption].
Qed.
Lemma iterate_all {C} shapes (bs : list (list (list (row (entry_row C))))) : Forall (fun b => element_fits C shapes b = true) bs -> iterate C shapes bs = (bs, None).
Proof. induction 1 as [|b bs Hb _ IH]; [reflexivity|]. cbn [iterate]. rewrite Hb, IH. reflexivity. Qed.
Lemma iterate_prefix {C} shapes (bs : list (list (list (row (entry_row C))))) : forall out e, iterate C shapes bs = (out, e) ->
  Forall (fun b => element_fits C shapes b = true) out /\
  match e with
  | None => out = bs
  | Some e => e = TypeError /\ exists b rest, bs = out ++ b :: rest /\ element_fits C shapes b = false
  end.
Proof.
  induction bs as [|b bs IH]; intros out e H; cbn [iterate] in H; [injection H as <- <-; split; [constructor|reflexivity]|].
  destruct (element_fits C shapes b) eqn:E.
  - destruct (iterate C shapes bs) as [out' e'] eqn:F. injection H as <- <-. destruct (IH out' e' eq_refl) as [A B]. split; [constructor; assumption|].
    destruct e' as [e'|]; [|congruence]. destruct B as (-> & b' & rest & -> & B). split; [reflexivity|]. exists b', rest. auto.
  - injection H as <- <-. split; [constructor|]. split; [reflexivity|]. exists b, bs. auto.
Qed.
