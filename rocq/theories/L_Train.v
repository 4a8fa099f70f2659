(** Lemmas for training. *)
From Coq Require Import Sorting.Sorted DecimalString DecimalNat DecimalFacts Decimal.
From Verif Require Import Py PyFacts PyStr PyStrFacts M_Checkpoint S_Checkpoint L_Checkpoint L_Crash T_Checkpoint M_Train S_Train.
Open Scope nat_scope.

Section Loop.
Variable B : Type.
Variable nan : nat -> bool.
Implicit Types (s : list B * list B) (tr : list (event B)).

(** ** Consumption of data *)

Definition Consumes s (r : list (event B) * result (list B * list B)) : Prop :=
  exists t v, fst s = other_batches (fst r) ++ t /\ snd s = val_batches (fst r) ++ v /\
    match snd r with Ok s' => s' = (t, v) | Err _ => True end.

Lemma other_app tr tr' : other_batches (tr ++ tr') = other_batches tr ++ other_batches tr'.
Proof. apply flat_map_app. Qed.
Lemma val_app tr tr' : val_batches (tr ++ tr') = val_batches tr ++ val_batches tr'.
Proof. apply flat_map_app. Qed.

Lemma consumes_andthen s r f : Consumes s r -> (forall s', snd r = Ok s' -> Consumes s' (f s')) -> Consumes s (andthen r f).
Proof.
  intros (t & v & H1 & H2 & H3) HF. destruct r as [tr [s'|e]]; cbn [fst snd andthen] in *.
  - destruct (HF s' eq_refl) as (t' & v' & A1 & A2 & A3). destruct (f s') as [tr' r']. cbn [fst snd] in *. subst s'. cbn [fst snd] in *.
    exists t', v'. cbn [fst snd]. rewrite other_app, val_app, H1, H2, A1, A2, <- !app_assoc. auto.
  - exists t, v. auto.
Qed.

Lemma consumes_update s : Consumes s (do_update s).
Proof. destruct s as [[|b t] v]; [exists [], v|exists t, v]; cbn; auto. Qed.

Lemma consumes_validate o k s : Consumes s (do_validate nan o k s).
Proof.
  unfold do_validate, divides. destruct (Nat.eqb (o_val o) 0); [exists (fst s), (snd s); cbn; auto|].
  destruct (Nat.eqb _ 0); [|exists (fst s), (snd s); cbn; destruct s; auto].
  destruct s as [[|b t] v]; [exists [], v; cbn; auto|]. destruct v as [|b' v]; [exists t, []; cbn; auto|].
  exists t, v. cbn. destruct (nan k); auto.
Qed.

Lemma consumes_evaluate o k s : Consumes s (do_evaluate o k s).
Proof.
  unfold do_evaluate, divides. destruct (Nat.eqb (o_eval o) 0); [exists (fst s), (snd s); cbn; auto|].
  destruct (Nat.eqb _ 0); [|exists (fst s), (snd s); cbn; destruct s; auto].
  destruct (o_module o); [|exists (fst s), (snd s); cbn; destruct s; auto].
  destruct s as [[|b t] v]; [exists [], v; cbn; auto|]. exists t, v. cbn. auto.
Qed.

Lemma consumes_save o k s : Consumes s (do_save o k s).
Proof.
  unfold do_save, divides. destruct (Nat.eqb (o_save o) 0); [exists (fst s), (snd s); cbn; auto|].
  exists (fst s), (snd s). destruct (_ && _); cbn; destruct s; auto.
Qed.

Lemma consumes_body o k s : Consumes s (body nan o k s).
Proof.
  unfold body. apply consumes_andthen; [apply consumes_update|]. intros s1 _.
  apply consumes_andthen; [apply consumes_validate|]. intros s2 _.
  apply consumes_andthen; [apply consumes_evaluate|]. intros s3 _. apply consumes_save.
Qed.

Lemma consumes_loop o ks : forall s, Consumes s (loop nan o ks s).
Proof.
  induction ks as [|k ks IH]; intros s; cbn [loop]; [exists (fst s), (snd s); cbn; destruct s; auto|].
  apply consumes_andthen; [apply consumes_body|]. intros s' _. apply IH.
Qed.

Lemma consumes_train o n s : Consumes s (train nan o n s).
Proof.
  unfold train. apply consumes_andthen; [exists (fst s), (snd s); cbn; destruct s; auto|]. intros s1 _.
  apply consumes_andthen; [apply consumes_loop|]. intros s2 _. destruct n; exists (fst s2), (snd s2); cbn; destruct s2; auto.
Qed.

(** ** Shape of a successful pass *)

Definition vals o k := Nat.eqb (k mod o_val o) 0.
Definition evals o k := Nat.eqb (k mod o_eval o) 0 && o_module o.
Definition saves o k := Nat.eqb (k mod o_save o) 0 && negb (Nat.eqb k 0).

Inductive Part (o : topt) (k : nat) : list (event B) -> Prop :=
  part b v e : (if vals o k then exists b1 b2, v = [LossTrain b1; LossVal b2] else v = []) ->
    (if evals o k then exists b1, e = [Evaluate b1 k] else e = []) ->
    Part o k ([Inc; Update b] ++ v ++ e ++ (if saves o k then [Save k false] else [])).

Lemma body_ok o k s tr s' : body nan o k s = (tr, Ok s') -> Part o k tr /\ o_val o <> 0 /\ o_eval o <> 0 /\ o_save o <> 0.
Proof.
  unfold body. destruct (do_update s) as [tr1 [s1|]] eqn:E1; cbn [andthen]; [|discriminate].
  destruct (do_validate nan o k s1) as [tr2 [s2|]] eqn:E2; cbn [andthen]; [|discriminate].
  destruct (do_evaluate o k s2) as [tr3 [s3|]] eqn:E3; cbn [andthen]; [|discriminate].
  destruct (do_save o k s3) as [tr4 [s4|]] eqn:E4; intros H; [|discriminate]. injection H as <- _.
  unfold do_update in E1. destruct (next (fst s)) as [[b t]|]; [|discriminate]. injection E1 as <- _.
  unfold do_validate, divides in E2. destruct (Nat.eqb_spec (o_val o) 0) as [|H1]; [discriminate|].
  unfold do_evaluate, divides in E3. destruct (Nat.eqb_spec (o_eval o) 0) as [|H2]; [discriminate|].
  unfold do_save, divides in E4. destruct (Nat.eqb_spec (o_save o) 0) as [|H3]; [discriminate|].
  split; [|auto]. injection E4 as <- _. apply (part o k b tr2 tr3).
  - unfold vals. destruct (Nat.eqb (k mod o_val o) 0); [|injection E2 as <- _; reflexivity].
    destruct (next (fst s1)) as [[b1 t1]|]; [|discriminate]. destruct (next (snd s1)) as [[b2 t2]|]; [|discriminate].
    injection E2 as <- _. eauto.
  - unfold evals. destruct (Nat.eqb (k mod o_eval o) 0); [|injection E3 as <- _; reflexivity]. cbn [andb].
    destruct (o_module o); [|injection E3 as <- _; reflexivity].
    destruct (next (fst s2)) as [[b1 t1]|]; [|discriminate]. injection E3 as <- _. eauto.
Qed.

Lemma loop_ok o ks : forall s tr s', loop nan o ks s = (tr, Ok s') ->
  exists parts, tr = concat parts /\ Forall2 (Part o) ks parts /\ (ks <> [] -> o_val o <> 0 /\ o_eval o <> 0 /\ o_save o <> 0).
Proof.
  induction ks as [|k ks IH]; intros s tr s' H; cbn [loop] in H.
  - injection H as <- _. exists []. split; [reflexivity|]. split; [constructor|congruence].
  - destruct (body nan o k s) as [t1 [s1|]] eqn:E1; cbn [andthen] in H; [|discriminate].
    destruct (loop nan o ks s1) as [t2 r2] eqn:E2. injection H as <- ->.
    destruct (IH _ _ _ E2) as (parts & -> & HF & _). destruct (body_ok _ _ _ _ _ E1) as [HP HZ].
    exists (t1 :: parts). split; [reflexivity|]. split; [constructor; assumption|auto].
Qed.

Lemma train_ok o n s tr s' : train nan o n s = (tr, Ok s') ->
  exists m parts, n = S m /\ tr = Start :: concat parts ++ [Save m true] /\ Forall2 (Part o) (seq 0 n) parts /\
    o_val o <> 0 /\ o_eval o <> 0 /\ o_save o <> 0.
Proof.
  unfold train. cbn [andthen]. destruct (loop nan o (seq 0 n) s) as [t [s1|]] eqn:E; cbn [andthen]; [|discriminate].
  destruct n as [|m]; [discriminate|]. intros H. injection H as <- _. destruct (loop_ok _ _ _ _ _ E) as (parts & -> & HF & HZ).
  exists m, parts. split; [reflexivity|]. split; [reflexivity|]. split; [exact HF|]. apply HZ. discriminate.
Qed.

Lemma filter_concat_parts {C} (f : event B -> list C) o (g : nat -> list C) :
  (forall k p, Part o k p -> flat_map f p = g k) ->
  forall ks parts, Forall2 (Part o) ks parts -> flat_map f (concat parts) = flat_map g ks.
Proof.
  intros H ks parts HF. induction HF as [|k p ks parts HP HF IH]; [reflexivity|]. cbn [concat flat_map]. rewrite flat_map_app, IH, (H k p HP). reflexivity.
Qed.

Lemma part_map {C} (f : event B -> list C) o k p : Part o k p ->
  exists b v e, p = [Inc; Update b] ++ v ++ e ++ (if saves o k then [Save k false] else []) /\
    flat_map f p = f Inc ++ f (Update b) ++ flat_map f v ++ flat_map f e ++ flat_map f (if saves o k then [Save k false] else []).
Proof.
  intros [b v e Hv He]. exists b, v, e. split; [reflexivity|]. rewrite !flat_map_app. cbn [flat_map]. rewrite app_nil_r, <- app_assoc. reflexivity.
Qed.

(** Saves inside the loop. *)
Definition save_of (ev : event B) : list (nat * bool) := match ev with Save k f => [(k, f)] | _ => [] end.

Lemma part_saves o k p : Part o k p -> flat_map save_of p = if saves o k then [(k, false)] else [].
Proof.
  intros [b v e Hv He]. rewrite !flat_map_app. cbn [flat_map save_of app].
  assert (E1 : flat_map save_of v = []) by (destruct (vals o k); [destruct Hv as (b1 & b2 & ->)|subst v]; reflexivity).
  assert (E2 : flat_map save_of e = []) by (destruct (evals o k); [destruct He as (b1 & ->)|subst e]; reflexivity).
  rewrite E1, E2. destruct (saves o k); reflexivity.
Qed.

Definition upd_of (ev : event B) : list unit := match ev with Update _ => [tt] | _ => [] end.
Definition inc_of (ev : event B) : list unit := match ev with Inc => [tt] | _ => [] end.

Lemma updates_flat tr : updates tr = length (flat_map upd_of tr).
Proof. unfold updates. induction tr as [|e tr IH]; [reflexivity|]. destruct e; cbn [filter flat_map upd_of app length]; rewrite ?IH; reflexivity. Qed.
Lemma increments_flat tr : increments tr = length (flat_map inc_of tr).
Proof. unfold increments. induction tr as [|e tr IH]; [reflexivity|]. destruct e; cbn [filter flat_map inc_of app length]; rewrite ?IH; reflexivity. Qed.

Lemma part_upd o k p : Part o k p -> flat_map upd_of p = [tt].
Proof.
  intros [b v e Hv He]. rewrite !flat_map_app. cbn [flat_map upd_of app].
  assert (E1 : flat_map upd_of v = []) by (destruct (vals o k); [destruct Hv as (b1 & b2 & ->)|subst v]; reflexivity).
  assert (E2 : flat_map upd_of e = []) by (destruct (evals o k); [destruct He as (b1 & ->)|subst e]; reflexivity).
  rewrite E1, E2. destruct (saves o k); reflexivity.
Qed.
Lemma part_inc o k p : Part o k p -> flat_map inc_of p = [tt].
Proof.
  intros [b v e Hv He]. rewrite !flat_map_app. cbn [flat_map inc_of app].
  assert (E1 : flat_map inc_of v = []) by (destruct (vals o k); [destruct Hv as (b1 & b2 & ->)|subst v]; reflexivity).
  assert (E2 : flat_map inc_of e = []) by (destruct (evals o k); [destruct He as (b1 & ->)|subst e]; reflexivity).
  rewrite E1, E2. destruct (saves o k); reflexivity.
Qed.

Lemma flat_const {A C} (c : C) (l : list A) : length (flat_map (fun _ => [c]) l) = length l.
Proof. induction l; cbn; congruence. Qed.

Lemma updates_app a b : updates (B := B) (a ++ b) = updates a + updates b.
Proof. unfold updates. rewrite filter_app, app_length. reflexivity. Qed.

Lemma parts_updates o ks parts : Forall2 (Part o) ks parts -> updates (concat parts) = length ks.
Proof.
  intros H. rewrite updates_flat, (filter_concat_parts upd_of o (fun _ => [tt]) (part_upd o) ks parts H). apply flat_const.
Qed.

(** Saves with the number of updates before. *)
Fixpoint annot (u : nat) (tr : list (event B)) : list (nat * bool * nat) :=
  match tr with
  | [] => []
  | Update _ :: tr => annot (S u) tr
  | Save c f :: tr => (c, f, u) :: annot u tr
  | _ :: tr => annot u tr
  end.

Lemma annot_app a b : forall u, annot u (a ++ b) = annot u a ++ annot (u + updates a) b.
Proof.
  induction a as [|e a IH]; intros u; [rewrite Nat.add_0_r; reflexivity|]. unfold updates in *.
  destruct e; cbn [app annot filter length]; rewrite IH; try reflexivity. rewrite Nat.add_succ_r. reflexivity.
Qed.

Lemma annot_in tr : forall p c f q u, tr = p ++ Save c f :: q -> In (c, f, u + updates p) (annot u tr).
Proof. intros p c f q u ->. rewrite annot_app. apply in_or_app. right. left. reflexivity. Qed.

Lemma annot_save tr c f : forall u v, In (c, f, v) (annot u tr) -> exists p q, tr = p ++ Save c f :: q /\ v = u + updates p.
Proof.
  induction tr as [|e tr IH]; intros u v H; [destruct H|].
  assert (HG : forall u', In (c, f, v) (annot u' tr) -> u' = u + updates [e] -> exists p q, e :: tr = p ++ Save c f :: q /\ v = u + updates p).
  { intros u' H' E. destruct (IH _ _ H') as (p & q & -> & ->). exists (e :: p), q. split; [reflexivity|].
    change (e :: p) with ([e] ++ p). rewrite updates_app. lia. }
  destruct e; cbn [annot] in H; try (apply (HG _ H); unfold updates; cbn; lia).
  destruct H as [H|H]; [|apply (HG _ H); unfold updates; cbn; lia].
  injection H as -> -> ->. exists [], tr. split; [reflexivity|]. unfold updates. cbn. lia.
Qed.

Lemma part_annot o k p u : Part o k p -> annot u p = if saves o k then [(k, false, S u)] else [].
Proof.
  intros [b v e Hv He]. cbn [app annot]. rewrite !annot_app.
  assert (E1 : annot (S u) v = [] /\ updates v = 0) by (destruct (vals o k); [destruct Hv as (b1 & b2 & ->)|subst v]; auto).
  assert (E2 : annot (S u) e = [] /\ updates e = 0) by (destruct (evals o k); [destruct He as (b1 & ->)|subst e]; auto).
  destruct E1 as [-> ->], E2 as [E2 E2']. rewrite Nat.add_0_r, E2, E2', Nat.add_0_r. destruct (saves o k); reflexivity.
Qed.

Lemma parts_annot o : forall n n0 parts, Forall2 (Part o) (seq n0 n) parts ->
  annot n0 (concat parts) = flat_map (fun c => if saves o c then [(c, false, S c)] else []) (seq n0 n).
Proof.
  induction n as [|n IH]; intros n0 parts H; cbn [seq] in H; inversion H as [|k p ks parts' HP HF]; subst; [reflexivity|].
  cbn [concat seq flat_map]. rewrite annot_app, (part_annot _ _ _ _ HP), updates_flat, (part_upd _ _ _ HP). cbn [length].
  rewrite Nat.add_1_r, (IH _ _ HF). reflexivity.
Qed.

(** Saves of a successful run. *)
Lemma train_annot o n s tr s' : train nan o n s = (tr, Ok s') ->
  annot 0 tr = flat_map (fun c => if saves o c then [(c, false, S c)] else []) (seq 0 n) ++ [(n - 1, true, n)] /\
  updates tr = n /\ increments tr = n /\ o_val o <> 0 /\ o_eval o <> 0 /\ o_save o <> 0.
Proof.
  intros H. destruct (train_ok _ _ _ _ _ H) as (m & parts & -> & -> & HF & HZ).
  assert (HU : updates (concat parts) = S m) by (rewrite (parts_updates _ _ _ HF), seq_length; reflexivity).
  split.
  - cbn [annot]. rewrite annot_app, HU, (parts_annot _ _ _ _ HF). cbn [annot Nat.add Nat.sub]. rewrite Nat.sub_0_r. reflexivity.
  - split; [|split; [|exact HZ]].
    + change (Start :: concat parts ++ [Save m true]) with ([Start] ++ concat parts ++ [Save m true]). rewrite !updates_app, HU. unfold updates. cbn. lia.
    + rewrite increments_flat. cbn [flat_map inc_of app]. rewrite flat_map_app, (filter_concat_parts inc_of o (fun _ => [tt]) (part_inc o) _ _ HF).
      rewrite app_length, flat_const, seq_length. cbn. lia.
Qed.

Lemma saves_iff o c : o_save o <> 0 -> saves o c = true <-> 0 < c /\ exists j, c = j * o_save o.
Proof.
  intros Hz. unfold saves. rewrite andb_true_iff, negb_true_iff, Nat.eqb_eq, Nat.eqb_neq. split.
  - intros [H1 H2]. split; [lia|]. apply Nat.mod_divides in H1; [|exact Hz]. destruct H1 as [j ->]. exists j. lia.
  - intros [H1 (j & ->)]. split; [apply Nat.mod_mul; exact Hz|lia].
Qed.

(** ** When a run succeeds *)

Definition count (f : nat -> bool) (ks : list nat) : nat := length (filter f ks).

Lemma body_runs o k s : o_val o <> 0 -> o_eval o <> 0 -> o_save o <> 0 ->
  (exists tr s', body nan o k s = (tr, Ok s')) <->
  (1 + (if vals o k then 1 else 0) + (if evals o k then 1 else 0) <= length (fst s) /\
   (if vals o k then 1 else 0) <= length (snd s) /\ (vals o k = true -> nan k = false)).
Proof.
  intros H1 H2 H3. unfold body, do_validate, do_evaluate, do_save, divides, vals, evals.
  apply Nat.eqb_neq in H1, H2, H3. rewrite H1, H2, H3. destruct s as [t v]. cbn [fst snd].
  destruct (k mod o_val o =? 0) eqn:E1, (k mod o_eval o =? 0) eqn:E2, (o_module o) eqn:E3, (nan k) eqn:E4;
  destruct t as [|b1 [|b2 [|b3 t]]], v as [|c1 v]; cbn; (split; [intros (tr & s' & H); try discriminate H|intros (A1 & A2 & A3)]);
  try (repeat split; try lia; intros; congruence); try lia; try (specialize (A3 eq_refl); discriminate A3); eauto.
Qed.

Lemma body_sizes o k s tr s' : body nan o k s = (tr, Ok s') ->
  length (fst s) = 1 + (if vals o k then 1 else 0) + (if evals o k then 1 else 0) + length (fst s') /\
  length (snd s) = (if vals o k then 1 else 0) + length (snd s').
Proof.
  intros H. pose proof (consumes_body o k s) as (t & v & E1 & E2 & E3). destruct (body_ok _ _ _ _ _ H) as [HP _].
  rewrite H in *. cbn [fst snd] in *. subst s'. rewrite E1, E2, !app_length. cbn [fst snd].
  assert (X : length (other_batches tr) = 1 + (if vals o k then 1 else 0) + (if evals o k then 1 else 0) /\
              length (val_batches tr) = (if vals o k then 1 else 0)); [|lia].
  destruct HP as [b v' e Hv He]. rewrite !other_app, !val_app, !app_length.
  destruct (vals o k); [destruct Hv as (b1 & b2 & ->)|subst v']; (destruct (evals o k); [destruct He as (b3 & ->)|subst e]);
    destruct (saves o k); cbn; lia.
Qed.

Lemma loop_runs o ks : o_val o <> 0 -> o_eval o <> 0 -> o_save o <> 0 -> forall s,
  (exists tr s', loop nan o ks s = (tr, Ok s')) <->
  (length ks + count (vals o) ks + count (evals o) ks <= length (fst s) /\
   count (vals o) ks <= length (snd s) /\ (forall k, In k ks -> vals o k = true -> nan k = false)).
Proof.
  intros H1 H2 H3. induction ks as [|k ks IH]; intros s; cbn [loop].
  - split; [intros _; cbn; repeat split; try lia; intros k []|intros _; eauto].
  - assert (HC : forall f, count f (k :: ks) = (if f k then 1 else 0) + count f ks) by (intros f; unfold count; cbn [filter]; destruct (f k); reflexivity).
    rewrite !HC. cbn [length]. destruct (body nan o k s) as [tr [s1|ex]] eqn:E; cbn [andthen].
    + destruct (body_sizes _ _ _ _ _ E) as [S1 S2].
      assert (HB : exists tr s', body nan o k s = (tr, Ok s')) by eauto. apply (body_runs o k s H1 H2 H3) in HB. destruct HB as (_ & _ & HN).
      specialize (IH s1). destruct (loop nan o ks s1) as [tr2 r2].
      split.
      * intros (t & s' & H). injection H as _ ->. destruct (proj1 IH) as (A1 & A2 & A3); [eauto|]. repeat split; [lia|lia|].
        intros j [<-|Hj]; [exact HN|apply A3; exact Hj].
      * intros (A1 & A2 & A3). destruct (proj2 IH) as (t & s' & H); [|injection H as -> ->; eauto].
        repeat split; [lia|lia|]. intros j Hj. apply A3. right. exact Hj.
    + split; [intros (t & s' & H); discriminate|]. intros (A1 & A2 & A3). exfalso.
      destruct (proj2 (body_runs o k s H1 H2 H3)) as (t & s' & H); [|congruence].
      repeat split; [lia|lia|]. apply A3. left. reflexivity.
Qed.

Lemma count_ceil f n : f <> 0 -> count (fun k => Nat.eqb (k mod f) 0) (seq 0 n) = ceil_div n f.
Proof.
  intros Hf. unfold ceil_div. induction n as [|n IH].
  - cbn. rewrite Nat.div_small by lia. reflexivity.
  - rewrite seq_S. unfold count in *. rewrite filter_app, app_length, IH. change (0 + n) with n. cbn [filter].
    pose proof (Nat.div_mod n f Hf) as HD. pose proof (Nat.mod_upper_bound n f Hf) as HU.
    destruct (Nat.eqb_spec (n mod f) 0) as [E|E]; cbn [length].
    + assert (E1 : (S n + f - 1) / f = n / f + 1).
      { replace (S n + f - 1) with (0 + (n / f + 1) * f) by nia. rewrite Nat.div_add by exact Hf. rewrite (Nat.div_small 0 f) by lia. lia. }
      assert (E2 : (n + f - 1) / f = n / f).
      { replace (n + f - 1) with ((f - 1) + (n / f) * f) by nia. rewrite Nat.div_add by exact Hf. rewrite (Nat.div_small (f - 1) f) by lia. lia. }
      lia.
    + assert (E1 : (S n + f - 1) / f = n / f + 1).
      { replace (S n + f - 1) with (n mod f + (n / f + 1) * f) by nia. rewrite Nat.div_add by exact Hf. rewrite (Nat.div_small (n mod f) f) by lia. lia. }
      assert (E2 : (n + f - 1) / f = n / f + 1).
      { replace (n + f - 1) with ((n mod f - 1) + (n / f + 1) * f) by nia. rewrite Nat.div_add by exact Hf. rewrite (Nat.div_small (n mod f - 1) f) by lia. lia. }
      lia.
Qed.

Lemma count_false ks : count (fun _ => false) ks = 0.
Proof. induction ks; [reflexivity|assumption]. Qed.

Lemma count_ext f g ks : (forall k, f k = g k) -> count f ks = count g ks.
Proof. intros H. unfold count. induction ks as [|k ks IH]; [reflexivity|]. cbn [filter]. rewrite H. destruct (g k); cbn [length]; congruence. Qed.

Lemma train_runs o n s :
  (exists tr s', train nan o n s = (tr, Ok s')) <->
  (n <> 0 /\ o_val o <> 0 /\ o_eval o <> 0 /\ o_save o <> 0 /\
   n + ceil_div n (o_val o) + (if o_module o then ceil_div n (o_eval o) else 0) <= length (fst s) /\
   ceil_div n (o_val o) <= length (snd s) /\
   (forall k, k < n -> k mod o_val o = 0 -> nan k = false)).
Proof.
  assert (HEV : o_eval o <> 0 -> count (evals o) (seq 0 n) = if o_module o then ceil_div n (o_eval o) else 0).
  { intros Hz. destruct (o_module o) eqn:E.
    - rewrite <- (count_ceil _ _ Hz). apply count_ext. intros k. unfold evals. rewrite E, andb_true_r. reflexivity.
    - transitivity (count (fun _ => false) (seq 0 n)); [|apply count_false]. apply count_ext. intros k. unfold evals. rewrite E, andb_false_r. reflexivity. }
  split.
  - intros (tr & s' & H). destruct (train_ok _ _ _ _ _ H) as (m & _ & Hn & _ & _ & H1 & H2 & H3).
    assert (HL : exists tr s', loop nan o (seq 0 n) s = (tr, Ok s')).
    { unfold train in H. cbn [andthen] in H. destruct (loop nan o (seq 0 n) s) as [t [s1|]]; [eauto|discriminate]. }
    apply (loop_runs o _ H1 H2 H3) in HL. rewrite seq_length, (HEV H2) in HL. unfold vals in HL. rewrite (count_ceil _ _ H1) in HL.
    destruct HL as (A1 & A2 & A3). repeat split; [lia|exact H1|exact H2|exact H3|exact A1|exact A2|].
    intros k Hk Hm. apply A3; [apply in_seq; lia|]. apply Nat.eqb_eq. exact Hm.
  - intros (Hn & H1 & H2 & H3 & A1 & A2 & A3).
    destruct (proj2 (loop_runs o (seq 0 n) H1 H2 H3 s)) as (t & s1 & E).
    + rewrite seq_length, (HEV H2). unfold vals. rewrite (count_ceil _ _ H1). repeat split; [exact A1|exact A2|].
      intros k Hk Hm. apply in_seq in Hk. apply A3; [lia|]. apply Nat.eqb_eq. exact Hm.
    + unfold train. cbn [andthen]. rewrite E. cbn [andthen]. destruct n as [|m]; [lia|]. eauto.
Qed.

End Loop.

(** ** Effect on the directory *)
Section Directory.
Variables (B W : Type) (df : nat -> bool) (w : nat -> W).

Lemma next_ops_weights d l h e : Forall (fun o => weights_op W o = true) (next_ops W df d l h e ++ [TruncYaml; DumpYaml (next_meta W l h e)]).
Proof.
  rewrite next_ops_eq. apply Forall_app. split; [|repeat constructor]. apply Forall_app. split; [repeat constructor|].
  apply Forall_forall. intros o Ho. apply removals_of in Ho. destruct Ho as (n & _ & Ho). destruct Ho; reflexivity.
Qed.

Lemma execute_save h d k s fin u cs : Hist df h d -> TInv W k d -> 1 <= k ->
  exists d' e t, on_event (B := B) df w cs (Ok (d, u)) (Save s fin) = Ok (d', u) /\ Hist df (h ++ [e]) d' /\ TInv W k d' /\
    e_w e = w u /\ e_prot e = fin /\ e_keep e = 3%Z /\ d_train d' = Some (Some t) /\ t_latest t = k /\ nget k (t_steps t) = Some s.
Proof.
  intros HH HT Hk. destruct (hist_inv W df h d HH) as (l & HI & _).
  set (e := {| e_prot := fin; e_keep := 3%Z; e_desc := if fin then Some "End of training step" else None; e_training := None; e_steps := Some s; e_w := w u |}).
  assert (HU : exists t ops0, d_train d = Some (Some t) /\ t_latest t = k /\ update_num_training_steps d s = (ops0, None) /\
    ops0 = [TruncTrain; DumpTrain {| t_latest := t_latest t; t_steps := nset (t_latest t) s (t_steps t) |}]).
  { destruct HT as [_ HT]. unfold update_num_training_steps. destruct (d_train d) as [[t|]|]; [|destruct HT|lia].
    destruct HT as [HL HK]. assert (HX : has_key k (t_steps t) = true) by (apply HK; lia). unfold has_key in HX. rewrite HL.
    destruct (nget k (t_steps t)); [|discriminate]. exists t. eexists. rewrite HL. auto. }
  destruct HU as (t & ops0 & E1 & E2 & E3 & E4).
  destruct (save_weights_inv W df h d l e HI) as [(ops & ex & _ & s' & Hs & HE)|(ops1 & HO & HS)].
  - cbn in Hs. injection Hs as <-. rewrite E3 in HE. discriminate.
  - cbn [e_steps e] in HO. rewrite E3 in HO. injection HO as ->.
    cbn [on_event]. change (save_weights df d true 3 fin (if fin then Some "End of training step" else None) (Some s) (w u))
      with (save_weights df d true (e_keep e) (e_prot e) (e_desc e) (e_steps e) (e_w e)).
    pose proof (tinv_weights W df k d true (e_keep e) (e_prot e) (e_desc e) (e_steps e) (e_w e) _ _ HT HS) as HT'.
    rewrite HS. eexists. exists e. eexists. split; [reflexivity|]. split.
    { eapply h_save; [exact HH|]. unfold save. cbn [e_training e run fold_left]. rewrite HS. reflexivity. }
    split; [exact HT'|]. split; [reflexivity|]. split; [reflexivity|]. split; [reflexivity|].
    rewrite run_app. destruct (run_weights W _ (run ops0 d) (next_ops_weights (run ops0 d) l h e)) as [-> _].
    rewrite E4. cbn. split; [reflexivity|]. cbn. rewrite E2. split; [reflexivity|]. rewrite nget_nset, Nat.eqb_refl. reflexivity.
Qed.

Definition no_start (e : event B) : Prop := e <> Start.

Lemma execute_ok cs tr : Forall no_start tr -> forall h d k u, Hist df h d -> TInv W k d -> 1 <= k ->
  exists h' d', fold_left (on_event df w cs) tr (Ok (d, u)) = Ok (d', u + updates tr) /\ Hist df h' d' /\ TInv W k d'.
Proof.
  induction 1 as [|e tr He HF IH]; intros h d k u HH HT Hk; [exists h, d; rewrite Nat.add_0_r; auto|].
  cbn [fold_left]. change (e :: tr) with ([e] ++ tr). rewrite updates_app.
  assert (HK : forall h d u', Hist df h d -> TInv W k d -> u + updates [e] = u' ->
    exists h' d', fold_left (on_event df w cs) tr (Ok (d, u')) = Ok (d', u + (updates [e] + updates tr)) /\ Hist df h' d' /\ TInv W k d').
  { intros h1 d1 u' A1 A2 <-. destruct (IH h1 d1 k (u + updates [e]) A1 A2 Hk) as (h' & d' & A & A'). exists h', d'. rewrite A. split; [|exact A'].
    f_equal. f_equal. lia. }
  destruct e as [| |b|b|b|b s|s fin]; try (apply (HK h d); [exact HH|exact HT|unfold updates; cbn; lia]); [destruct He; reflexivity|].
  destruct (execute_save h d k s fin u cs HH HT Hk) as (d1 & x & t & E & HH1 & HT1 & _). rewrite E. apply (HK (h ++ [x]) d1); [exact HH1|exact HT1|unfold updates; cbn; lia].
Qed.

Lemma execute_start h d k cs : Hist df h d -> THist df k d -> (forall c, In c cs -> snd c = None) ->
  exists h' d', on_event (B := B) df w cs (Ok (d, 0)) Start = Ok (d', 0) /\ Hist df h' d' /\ TInv W (S k) d'.
Proof.
  intros HH HT HC. apply thist_inv in HT. destruct (tinv_training W k d cs HT HC) as (ops & E & HT1).
  destruct (hist_inv W df h d HH) as (l & HI & _).
  set (e := {| e_prot := true; e_keep := 3%Z; e_desc := Some "Starting Training"; e_training := Some cs; e_steps := None; e_w := w 0 |}).
  assert (HTr : Forall (fun o => training_op W o = true) ops).
  { pose proof (training_part_ops W d (Some cs)) as HP. unfold training_part in HP. rewrite E in HP. exact HP. }
  assert (HI1 : Inv W h (run ops d) l) by (eapply inv_same; [apply run_training; exact HTr|exact HI]).
  destruct (save_weights_inv W df h (run ops d) l e HI1) as [(o1 & ex & _ & s' & Hs & _)|(ops1 & HO & HS)]; [discriminate Hs|].
  cbn [e_steps e] in HO. injection HO as ->. cbn [app] in HS.
  pose proof (tinv_weights W df (S k) (run ops d) true (e_keep e) (e_prot e) (e_desc e) (e_steps e) (e_w e) _ _ HT1 HS) as HT2.
  cbn [on_event]. unfold save. rewrite E.
  change (save_weights df (run ops d) true 3 true (Some "Starting Training") None (w 0))
    with (save_weights df (run ops d) true (e_keep e) (e_prot e) (e_desc e) (e_steps e) (e_w e)). rewrite HS.
  exists (h ++ [e]). eexists. split; [reflexivity|]. split; [|rewrite run_app; exact HT2].
  eapply h_save; [exact HH|]. unfold save. cbn [e_training e]. rewrite E.
  change (save_weights df (run ops d) true 3 true (Some "Starting Training") None (w 0))
    with (save_weights df (run ops d) true (e_keep e) (e_prot e) (e_desc e) (e_steps e) (e_w e)).
  cbn [e_keep e_prot e_desc e_steps e_w e] in HS |- *. rewrite HS. reflexivity.
Qed.

Lemma part_no_start (nan : nat -> bool) o k p : Part B o k p -> Forall no_start p.
Proof.
  intros [b v e Hv He]. repeat (apply Forall_app; split).
  - repeat constructor; discriminate.
  - destruct (vals o k); [destruct Hv as (b1 & b2 & ->)|subst v]; repeat constructor; discriminate.
  - destruct (evals o k); [destruct He as (b1 & ->)|subst e]; repeat constructor; discriminate.
  - destruct (saves o k); repeat constructor; discriminate.
Qed.

End Directory.

(** ** Learning rate *)
Section Rate.
Variable L : Type.

Lemma loop_vars_some (b : list Z) (sch : list (Z -> L)) ds k : length sch = S (length b) -> length sch - 2 = S k ->
  loop_vars b sch = Some (nth k b 0%Z, nth (S k) sch ds).
Proof.
  intros H1 H2. unfold loop_vars. rewrite H2, seq_S, fold_left_app. cbn [fold_left Nat.add].
  rewrite (nth_error_nth' b 0%Z) by lia. rewrite (nth_error_nth' sch ds) by lia. reflexivity.
Qed.

Lemma loop_vars_none (b : list Z) (sch : list (Z -> L)) : length sch - 2 = 0 -> loop_vars b sch = None.
Proof. intros H. unfold loop_vars. rewrite H. reflexivity. Qed.

Lemma filter_one (v : nat -> L) i : forall k n0, filter fst (map (fun m => (Nat.eqb (S m) i, v m)) (seq n0 k)) =
  if Nat.leb (S n0) i && Nat.leb i (n0 + k) then [(true, v (i - 1))] else [].
Proof.
  induction k as [|k IH]; intros n0; cbn [seq map filter].
  - destruct (Nat.leb_spec (S n0) i), (Nat.leb_spec i (n0 + 0)); cbn; try reflexivity; lia.
  - change (fst (S n0 =? i, v n0)) with (S n0 =? i). rewrite IH. destruct (Nat.eqb_spec (S n0) i) as [<-|Hn].
    + destruct (Nat.leb_spec (S (S n0)) (S n0)); [lia|]. cbn [andb]. rewrite Nat.leb_refl.
      destruct (Nat.leb_spec (S n0) (n0 + S k)); [cbn [Nat.sub andb]; rewrite Nat.sub_0_r; reflexivity|lia].
    + replace (S n0 + k) with (n0 + S k) by lia. destruct (Nat.leb_spec (S (S n0)) i), (Nat.leb_spec (S n0) i); try lia; reflexivity.
Qed.

Lemma sorted_nth (b : list Z) i j : StronglySorted Z.lt b -> i < j < length b -> (nth i b 0 < nth j b 0)%Z.
Proof.
  intros HS. revert i j. induction HS as [|x b HS IH HF]; intros i j Hij; cbn [length] in *; [lia|].
  rewrite Forall_forall in HF. destruct j as [|j]; [lia|]. destruct i as [|i]; cbn [nth]; [apply HF, nth_In; lia|apply IH; lia].
Qed.

Lemma interval_pred (b : list Z) i start step : StronglySorted Z.lt b -> b <> [] -> InInterval b i start step ->
  (step <=? nth 0 b 0)%Z = Nat.eqb i 0 /\ (nth (length b - 1) b 0 <? step)%Z = Nat.eqb i (length b) /\
  (forall m, S m < length b -> ((nth m b 0 <? step) && (step <=? nth (S m) b 0))%Z = Nat.eqb (S m) i) /\ i <= length b.
Proof.
  intros HS Hb [H1 H2].
  assert (Hl : 0 < length b) by (destruct b; [congruence|cbn; lia]).
  assert (Hi : i <= length b) by (destruct (nth_error b i) eqn:E; [assert (i < length b) by (apply nth_error_Some; congruence); lia|lia]).
  assert (HLO : forall m, m < i -> (nth m b 0 < step)%Z).
  { intros m Hm. destruct i as [|j]; [lia|]. destruct H1 as [H1 H1']. apply nth_error_nth with (d := 0%Z) in H1.
    destruct (Nat.eq_dec m j) as [->|Hn]; [lia|]. pose proof (sorted_nth b m j HS). lia. }
  assert (HHI : forall m, i <= m < length b -> (step <= nth m b 0)%Z).
  { intros m Hm. rewrite (nth_error_nth' b 0%Z) in H2 by lia. destruct (Nat.eq_dec m i) as [->|Hn]; [lia|]. pose proof (sorted_nth b i m HS). lia. }
  split; [|split; [|split; [|exact Hi]]].
  - destruct (Nat.eqb_spec i 0) as [->|Hn]; [apply Z.leb_le, HHI; lia|apply Z.leb_gt, HLO; lia].
  - destruct (Nat.eqb_spec i (length b)) as [->|Hn]; [apply Z.ltb_lt, HLO; lia|apply Z.ltb_ge, HHI; lia].
  - intros m Hm. destruct (Nat.eqb_spec (S m) i) as [<-|Hn].
    + apply andb_true_intro. split; [apply Z.ltb_lt, HLO; lia|apply Z.leb_le, HHI; lia].
    + apply andb_false_iff. destruct (Nat.lt_ge_cases m i); [right; apply Z.leb_gt, HLO; lia|left; apply Z.ltb_ge, HHI; lia].
Qed.

Lemma interval_exists (b : list Z) step : exists i start, InInterval b i start step.
Proof.
  induction b as [|x b IH] using rev_ind; [exists 0, 0%Z; split; reflexivity|].
  destruct IH as (i & start & H1 & H2). destruct (nth_error b i) as [hi|] eqn:E.
  - exists i, start. assert (Hi : i < length b) by (apply nth_error_Some; congruence). split.
    + destruct i as [|j]; [exact H1|]. destruct H1 as [H1 H1']. rewrite nth_error_app1 by lia. auto.
    + rewrite nth_error_app1, E by lia. exact H2.
  - subst i. destruct (Z.le_gt_cases step x) as [Hx|Hx].
    + exists (length b), start. split; [|rewrite nth_error_app2, Nat.sub_diag by lia; exact Hx].
      destruct (length b) as [|j] eqn:El; [exact H1|]. rewrite nth_error_app1 by lia. exact H1.
    + exists (S (length b)), x. split; [rewrite nth_error_app2, Nat.sub_diag by lia; split; [reflexivity|lia]|].
      rewrite (proj2 (nth_error_None (b ++ [x]) (S (length b)))) by (rewrite app_length; cbn; lia). rewrite app_length. cbn. lia.
Qed.

Lemma rev_head {A} (l : list A) d : l <> [] -> exists t, rev l = nth (length l - 1) l d :: t.
Proof.
  intros H. destruct l as [|x l] using rev_ind; [congruence|]. clear IHl. exists (rev l). rewrite rev_app_distr, app_length. cbn [length rev app].
  rewrite app_nth2, Nat.add_sub, Nat.sub_diag by lia. reflexivity.
Qed.

(** General form. *)
Lemma lr_call_eq late (b : list Z) (sch : list (Z -> L)) ds i start step : length sch = S (length b) -> b <> [] -> StronglySorted Z.lt b ->
  InInterval b i start step ->
  lr_call late (b, sch) step =
  Ok (if Nat.eqb i 0 || Nat.eqb i (length b) || negb late then nth i sch ds (step - start)%Z
      else nth (length b - 1) sch ds (step - nth (length b - 2) b 0)%Z).
Proof.
  intros Hl Hb HS HI. pose proof (interval_pred b i start step HS Hb HI) as (P1 & P2 & P3 & Hi). destruct HI as [HI1 _].
  assert (Hl0 : 0 < length b) by (destruct b; [congruence|cbn; lia]).
  assert (Hs : sch <> []) by (destruct sch; [discriminate|discriminate]).
  unfold lr_call. cbv beta iota. destruct (rev_head b 0%Z Hb) as (tb & EB). destruct (rev_head sch ds Hs) as (tsc & ES).
  replace (length sch - 1) with (length b) in ES by lia.
  destruct b as [|b0 b'] eqn:Eb; [congruence|]. rewrite <- Eb in *. destruct sch as [|s0 sch'] eqn:Esc; [congruence|]. rewrite <- Esc in *.
  rewrite EB, ES.
  assert (E0 : nth 0 b 0%Z = b0) by (rewrite Eb; reflexivity). rewrite E0 in P1. rewrite P1, P2.
  assert (ES0 : nth 0 sch ds = s0) by (rewrite Esc; reflexivity).
  set (mid := flat_map _ _).
  set (v := fun m : nat => if late then nth (length b - 1) sch ds (step - nth (length b - 2) b 0)%Z else nth (S m) sch ds (step - nth m b 0)%Z).
  assert (HM : filter fst mid = if Nat.leb 1 i && Nat.leb i (length b - 1) then [(true, v (i - 1))] else []).
  { assert (EM : mid = map (fun m => (Nat.eqb (S m) i, v m)) (seq 0 (length b - 1))).
    { subst mid. replace (length sch - 2) with (length b - 1) by lia.
      assert (HG : forall l, (forall m, In m l -> S m < length b) -> flat_map (fun index => match bound late b sch index with None => []
         | Some (low, scheduler) => [((nth index b 0 <? step)%Z && (step <=? nth (S index) b 0)%Z, scheduler (step - low)%Z)] end) l =
         map (fun m => (Nat.eqb (S m) i, v m)) l).
      { induction l as [|m l IHl]; intros HX; [reflexivity|]. cbn [flat_map map]. rewrite IHl by (intros x Hx; apply HX; right; exact Hx).
        assert (Hm : S m < length b) by (apply HX; left; reflexivity). unfold bound, v. destruct late.
        - rewrite (loop_vars_some b sch ds (length b - 2)) by lia. replace (S (length b - 2)) with (length b - 1) by lia. rewrite P3 by exact Hm. reflexivity.
        - rewrite (nth_error_nth' b 0%Z) by lia. rewrite (nth_error_nth' sch ds) by lia. rewrite P3 by exact Hm. reflexivity. }
      apply HG. intros m Hm. apply in_seq in Hm. lia. }
    rewrite EM, filter_one. reflexivity. }
  unfold tf_case. change (filter fst ((i =? 0, s0 step) :: (i =? length b, nth (length b) sch ds (step - nth (length b - 1) b 0)%Z) :: mid))
    with (let t := filter fst mid in let t := if Nat.eqb i (length b) then (Nat.eqb i (length b), nth (length b) sch ds (step - nth (length b - 1) b 0)%Z) :: t else t in
          if Nat.eqb i 0 then (Nat.eqb i 0, s0 step) :: t else t). cbv zeta. rewrite HM.
  destruct (Nat.eqb_spec i 0) as [->|Hn0].
  - destruct (Nat.eqb_spec 0 (length b)); [lia|]. cbn [Nat.leb andb orb]. rewrite ES0, HI1, Z.sub_0_r. reflexivity.
  - destruct (Nat.eqb_spec i (length b)) as [->|Hnl].
    + destruct (Nat.leb_spec (length b) (length b - 1)); [lia|]. rewrite andb_false_r. cbn [orb]. do 2 f_equal. 
      destruct (length b) as [|j] eqn:El; [lia|]. destruct HI1 as [HI1 _]. apply nth_error_nth with (d := 0%Z) in HI1. cbn [Nat.sub]. rewrite Nat.sub_0_r, HI1. reflexivity.
    + destruct (Nat.leb_spec 1 i); [|lia]. destruct (Nat.leb_spec i (length b - 1)); [|lia]. cbn [andb orb]. unfold v. destruct late; [reflexivity|]. cbn [negb].
      destruct i as [|j]; [lia|]. destruct HI1 as [HI1 _]. apply nth_error_nth with (d := 0%Z) in HI1. cbn [Nat.sub]. rewrite Nat.sub_0_r, HI1. reflexivity.
Qed.
End Rate.

(** ** Gradients *)
Section Gradients.
Variables G V : Type.
Variables (clean : G -> G) (has_is_nan : bool) (clip : list (option G) -> G -> G) (finite : G -> bool).

Definition values (l : list (option G)) : list G := flat_map (fun g => match g with Some g => [g] | None => [] end) l.

Lemma values_length l : length (values l) = length (filter is_some l).
Proof. induction l as [|[g|] l IH]; cbn; auto. Qed.

Lemma values_map f l : values (map (option_map f) l) = map f (values l).
Proof. unfold values. induction l as [|[g|] l IH]; cbn; [reflexivity| |exact IH]. rewrite IH. reflexivity. Qed.

Lemma values_filter l : values (filter is_some l) = values l.
Proof. unfold values. induction l as [|[g|] l IH]; cbn; [reflexivity| |exact IH]. rewrite IH. reflexivity. Qed.

Lemma values_some (l : list G) : values (map Some l) = l.
Proof. unfold values. induction l as [|g l IH]; cbn; [reflexivity|]. rewrite IH. reflexivity. Qed.

Lemma values_nth l : forall j g, nth_error l j = Some (Some g) -> nth_error (values l) (j - missing l j) = Some g /\ missing l j <= j.
Proof.
  induction l as [|x l IH]; intros j g H; [destruct j; discriminate|]. destruct j as [|j].
  - cbn in H. injection H as ->. split; [reflexivity|apply Nat.le_refl].
  - cbn [nth_error] in H. destruct (IH j g H) as [A1 A2]. unfold missing in *. cbn [firstn filter]. destruct x as [g'|]; cbn [length].
    + split; [rewrite Nat.sub_succ_l by exact A2; exact A1|lia].
    + split; [|lia]. exact A1.
Qed.

Lemma combine_nth_error {A C} (a : list A) (c : list C) j x y : nth_error a j = Some x -> nth_error c j = Some y -> nth_error (combine a c) j = Some (x, y).
Proof.
  revert c j. induction a as [|x' a IH]; intros c j H1 H2; [destruct j; discriminate|]. destruct c as [|y' c]; [destruct j; discriminate|].
  destruct j as [|j]; cbn in *; [congruence|auto].
Qed.

(** What is handed over in the end. *)
Lemma training_step_pairs rm cl gs (vs : list V) pairs : training_step clean has_is_nan clip finite rm cl gs vs = Ok pairs ->
  (rm = true \/ forallb is_some gs = true) /\
  let gs' := if rm then map (option_map clean) (filter is_some gs) else gs in
  let f := fun g => (if cl then clip gs' else fun g => g) (if rm then clean g else g) in
  pairs = combine (map f (values gs)) vs.
Proof.
  unfold training_step. cbv zeta.
  set (r := if rm then _ else _). assert (HR : forall l, r = Ok l -> l = if rm then map (option_map clean) (filter is_some gs) else gs).
  { subst r. destruct rm; [destruct (_ || _); [|discriminate]|]; intros l H; congruence. }
  destruct r as [l|]; [|discriminate]. specialize (HR l eq_refl). rewrite <- HR.
  set (capped := if cl then _ else _).
  destruct (forallb is_some capped) eqn:E1; cbn [negb]; [|discriminate].
  destruct (forallb _ capped) eqn:E2 in |- *; cbn [negb]; [|discriminate].
  set (cmb := combine _ _). intros H.
  assert (HC : pairs = cmb) by (destruct cmb; [discriminate|congruence]). clear H. split.
  - destruct rm; [left; reflexivity|right]. subst l capped. destruct cl; [|exact E1]. clear -E1.
    revert E1. generalize (clip gs). intros f E1. induction gs as [|[g|] l IH]; cbn in *; auto.
  - rewrite HC. subst cmb. f_equal. change (values capped = map (fun g => (if cl then clip l else fun g0 => g0) (if rm then clean g else g)) (values gs)).
    subst capped l. destruct cl, rm; rewrite ?values_map, ?values_filter, ?map_map; try reflexivity. rewrite map_id. reflexivity.
Qed.

Lemma training_step_missing cl gs (vs : list V) : In None gs -> training_step clean has_is_nan clip finite false cl gs vs = Err ValueError.
Proof.
  intros H. unfold training_step. set (capped := if cl then _ else _).
  assert (E : forallb is_some capped = false); [|rewrite E; reflexivity].
  apply not_true_is_false. intros HF. rewrite forallb_forall in HF.
  assert (HN : In None capped) by (subst capped; destruct cl; [apply in_map_iff; exists None; auto|exact H]).
  specialize (HF None HN). discriminate.
Qed.

Lemma training_step_ok rm cl gs (vs : list V) : has_is_nan = true -> (rm = true \/ ~ In None gs) -> values gs <> [] -> vs <> [] ->
  (forall g, finite g = true) -> exists pairs, training_step clean has_is_nan clip finite rm cl gs vs = Ok pairs.
Proof.
  intros Hh Hr Hg Hv Hf. unfold training_step. rewrite Hh. cbn [orb].
  set (r := if rm then _ else _).
  assert (HR : exists l, r = Ok l /\ forallb is_some l = true /\ values l <> []).
  { subst r. destruct rm.
    - eexists. split; [reflexivity|]. split; [|rewrite values_map, values_filter; destruct (values gs); [congruence|discriminate]].
      clear. induction gs as [|[g|] l IH]; cbn; auto.
    - eexists. split; [reflexivity|]. split; [|exact Hg]. destruct Hr as [|Hr]; [discriminate|]. apply forallb_forall. intros [g|] Hx; [reflexivity|contradiction]. }
  destruct HR as (l & -> & E1 & E2). set (capped := if cl then _ else _).
  assert (HC : forallb is_some capped = true /\ values capped <> []).
  { subst capped. destruct cl; [|auto]. split; [|rewrite values_map; destruct (values l); [congruence|discriminate]].
    generalize (clip l). intros f. clear -E1. induction l as [|[g|] l IH]; cbn in *; auto. }
  destruct HC as [-> HC]. cbn [negb].
  assert (HF : forallb (fun g => match g with Some g => finite g | None => true end) capped = true).
  { apply forallb_forall. intros [g|] _; [apply Hf|reflexivity]. }
  rewrite HF. cbn [negb]. fold (values capped). destruct (values capped); [congruence|]. destruct vs; [congruence|]. cbn. eauto.
Qed.
End Gradients.

(** ** Ensemble *)

Lemma compare_cons a x b y : String.compare (String a x) (String b y) =
  match N.compare (Ascii.N_of_ascii a) (Ascii.N_of_ascii b) with Eq => String.compare x y | c => c end.
Proof. reflexivity. Qed.

Lemma scompare_trans a : forall b c, String.compare a b = Lt -> String.compare b c = Lt -> String.compare a c = Lt.
Proof.
  induction a as [|x a IH]; intros [|y b] [|z c] H1 H2; try discriminate; try reflexivity.
  rewrite compare_cons in *.
  destruct (N.compare_spec (Ascii.N_of_ascii x) (Ascii.N_of_ascii y)) as [E1|E1|E1]; [| |discriminate];
  destruct (N.compare_spec (Ascii.N_of_ascii y) (Ascii.N_of_ascii z)) as [E2|E2|E2]; try discriminate.
  - rewrite E1, E2, N.compare_refl. eapply IH; eassumption.
  - rewrite E1. rewrite (proj2 (N.compare_lt_iff _ _) E2). reflexivity.
  - rewrite <- E2. rewrite (proj2 (N.compare_lt_iff _ _) E1). reflexivity.
  - rewrite (proj2 (N.compare_lt_iff _ _)); [reflexivity|]. eapply N.lt_trans; eassumption.
Qed.

Lemma compare_append p a b : String.compare (p ++ a) (p ++ b) = String.compare a b.
Proof. induction p as [|x p IH]; [reflexivity|]. cbn [append]. rewrite compare_cons, N.compare_refl. exact IH. Qed.

Lemma scompare_refl a : String.compare a a = Eq.
Proof. induction a as [|x a IH]; [reflexivity|]. rewrite compare_cons, N.compare_refl. exact IH. Qed.

(** Names of consecutive members, decided for the finitely many of them. *)
Definition fmt_little (u : Decimal.uint) : string :=
  let t := NilEmpty.string_of_uint (Decimal.rev u) in (zeros (4 - String.length t) ++ t)%string.

Fixpoint increasing (k : nat) (u : Decimal.uint) : bool :=
  match k with
  | O => true
  | S k' =>
      let v := Decimal.Little.succ u in
      match String.compare (fmt_little u) (fmt_little v) with Lt => increasing k' v | _ => false end
  end.

Lemma little_succ n : forall u, Nat.to_little_uint n (Decimal.Little.succ u) = Decimal.Little.succ (Nat.to_little_uint n u).
Proof. induction n as [|n IH]; intros u; [reflexivity|]. cbn [Nat.to_little_uint]. apply IH. Qed.

Lemma fmt_little_eq n : fmt_little (Nat.to_little_uint n Decimal.zero) = fmt04 n.
Proof. reflexivity. Qed.

Lemma increasing_ok k : forall n, increasing k (Nat.to_little_uint n Decimal.zero) = true ->
  forall i, n <= i < n + k -> String.compare (fmt04 i) (fmt04 (S i)) = Lt.
Proof.
  induction k as [|k IH]; intros n H i Hi; [lia|]. cbn [increasing] in H. rewrite <- little_succ in H.
  change (Nat.to_little_uint n (Decimal.Little.succ Decimal.zero)) with (Nat.to_little_uint (S n) Decimal.zero) in H.
  rewrite !fmt_little_eq in H. destruct (String.compare (fmt04 n) (fmt04 (S n))) eqn:E; try discriminate.
  destruct (Nat.eq_dec i n) as [->|Hn]; [exact E|]. apply (IH (S n) H). lia.
Qed.

Lemma below_10000 : increasing (Nat.of_num_uint 9999%uint) Decimal.zero = true.
Proof. vm_compute. reflexivity. Qed.

Lemma fmt04_lt i j : i < j -> j < Nat.of_num_uint 10000%uint -> String.compare (fmt04 i) (fmt04 j) = Lt.
Proof.
  intros Hij Hj. assert (HE : Nat.of_num_uint 10000%uint = S (Nat.of_num_uint 9999%uint)) by (vm_compute; reflexivity).
  rewrite HE in Hj. clear HE. revert Hj. pose proof (increasing_ok _ 0 below_10000) as HI. revert HI. generalize (Nat.of_num_uint 9999%uint). intros N HI Hj.
  induction Hij as [|j Hij IH]; [apply HI; lia|]. eapply scompare_trans; [apply IH; lia|]. apply HI. lia.
Qed.

Lemma name_lt i j : i < j -> j < Nat.of_num_uint 10000%uint -> String.compare (model_name i) (model_name j) = Lt.
Proof. intros H1 H2. unfold model_name. rewrite compare_append. apply fmt04_lt; assumption. Qed.

Lemma name_inj i j : model_name i = model_name j -> i = j.
Proof. intros H. apply append_inj_l in H. apply fmt04_inj. exact H. Qed.

Definition slt (a b : string) : Prop := String.compare a b = Lt.

Lemma ssort_sorted l : StronglySorted slt l -> ssort l = l.
Proof.
  induction 1 as [|x l HS IH HF]; [reflexivity|]. cbn [ssort fold_right]. fold (ssort l). rewrite IH.
  destruct l as [|y l]; [reflexivity|]. cbn [sinsert]. inversion HF as [|? ? E _]; subst. unfold slt in E. rewrite E. reflexivity.
Qed.

Lemma scompare_gt a b : String.compare a b = Gt -> String.compare b a = Lt.
Proof. intros H. rewrite String.compare_antisym, H. reflexivity. Qed.

(** The result of sorting is sorted. *)
Lemma sinsert_sorted x l : Sorted (fun a b => String.compare a b <> Gt) l -> Sorted (fun a b => String.compare a b <> Gt) (sinsert x l).
Proof.
  induction 1 as [|y l HS IH HR]; [repeat constructor|]. cbn [sinsert]. destruct (String.compare x y) eqn:E.
  - repeat constructor; [exact HS|exact HR|congruence].
  - repeat constructor; [exact HS|exact HR|congruence].
  - constructor; [exact IH|]. destruct l as [|z l]; cbn [sinsert] in *; [constructor; rewrite (scompare_gt _ _ E); discriminate|].
    inversion HR as [|? ? HZ]; subst. destruct (String.compare x z); constructor; try exact HZ; rewrite (scompare_gt _ _ E); discriminate.
Qed.

Lemma ssort_is_sorted l : Sorted (fun a b => String.compare a b <> Gt) (ssort l).
Proof. induction l as [|x l IH]; [constructor|]. apply sinsert_sorted. exact IH. Qed.

Lemma le_trans a b c : String.compare a b <> Gt -> String.compare b c <> Gt -> String.compare a c <> Gt.
Proof.
  intros H1 H2. destruct (String.compare a b) eqn:E1; [apply String.compare_eq_iff in E1; subst; exact H2| |congruence].
  destruct (String.compare b c) eqn:E2; [apply String.compare_eq_iff in E2; subst; congruence| |congruence].
  rewrite (scompare_trans _ _ _ E1 E2). discriminate.
Qed.

Lemma sinsert_in x y l : In y (sinsert x l) <-> y = x \/ In y l.
Proof.
  induction l as [|z l IH]; cbn [sinsert]; [cbn; intuition|].
  destruct (String.compare x z); cbn [In]; rewrite ?IH; intuition.
Qed.

Lemma ssort_in y l : In y (ssort l) <-> In y l.
Proof. induction l as [|x l IH]; [reflexivity|]. cbn [ssort fold_right]. fold (ssort l). rewrite sinsert_in, IH. cbn. intuition. Qed.

Lemma sinsert_length x l : length (sinsert x l) = S (length l).
Proof. induction l as [|y l IH]; [reflexivity|]. cbn [sinsert]. destruct (String.compare x y); cbn [length]; auto. Qed.

Lemma ssort_length l : length (ssort l) = length l.
Proof. induction l as [|x l IH]; [reflexivity|]. cbn [ssort fold_right]. fold (ssort l). rewrite sinsert_length, IH. reflexivity. Qed.

Section Members.
Variable M : Type.

Definition names (n : nat) : list string := map model_name (seq 0 n).

Lemma subs_eq (h : M) ms : sub_components h ms = ("data_handler", h) :: combine (names (length ms)) ms.
Proof.
  unfold sub_components, names.
  assert (HG : forall ms n0 (d : dict M), (forall i, n0 <= i -> ~ In (model_name i) (dkeys d)) ->
    fold_left (fun d im => dset (model_name (fst im)) (snd im) d) (combine (seq n0 (length ms)) ms) d = d ++ combine (map model_name (seq n0 (length ms))) ms).
  { clear ms. induction ms as [|m ms IH]; intros n0 d Hd; cbn [length seq combine map fold_left]; [rewrite app_nil_r; reflexivity|].
    cbn [fst snd].
    assert (E : dset (model_name n0) m d = d ++ [(model_name n0, m)]).
    { specialize (Hd n0 (Nat.le_refl _)). clear -Hd. induction d as [|[k v] d IH]; [reflexivity|]. cbn [dset app]. cbn [dkeys map fst In] in Hd.
      destruct (String.eqb_spec (model_name n0) k) as [E|E]; [destruct Hd; left; auto|]. rewrite IH; [reflexivity|]. intros H. apply Hd. right. exact H. }
    rewrite IH, E.
    - rewrite <- app_assoc. reflexivity.
    - intros i Hi. rewrite E. unfold dkeys. rewrite map_app, in_app_iff. intros [H|[H|[]]]; [apply (Hd i); [lia|exact H]|].
      cbn in H. apply name_inj in H. lia. }
  rewrite HG; [reflexivity|]. intros i _ [H|[]]. cbn in H. unfold model_name in H. discriminate.
Qed.

Lemma names_filter (h : M) ms : filter (fun k => String.eqb (substring 0 7 k) "models_") (dkeys (sub_components h ms)) = names (length ms).
Proof.
  rewrite subs_eq. cbn [dkeys map fst filter]. change (String.eqb (substring 0 7 "data_handler") "models_") with false. cbv iota.
  fold (dkeys (combine (names (length ms)) ms)). assert (E : dkeys (combine (names (length ms)) ms) = names (length ms)).
  { unfold names. generalize 0. induction ms as [|m ms IH]; intros n0; [reflexivity|]. cbn. f_equal. apply IH. }
  rewrite E. unfold names. generalize (seq 0 (length ms)). intros l. induction l as [|i l IH]; [reflexivity|]. cbn [map filter].
  assert (E1 : String.eqb (substring 0 7 (model_name i)) "models_" = true); [|rewrite E1, IH; reflexivity].
  unfold model_name. destruct (fmt04 i); reflexivity.
Qed.

Lemma name_get (h : M) ms i : dget (model_name i) (sub_components h ms) = nth_error ms i.
Proof.
  rewrite subs_eq. cbn [dget]. destruct (String.eqb_spec (model_name i) "data_handler") as [E|_]; [discriminate|].
  unfold names. assert (HG : forall (ms : list M) n0, n0 <= i -> dget (model_name i) (combine (map model_name (seq n0 (length ms))) ms) = nth_error ms (i - n0)).
  { clear ms. induction ms as [|m ms IH]; intros n0 Hn; cbn [length seq map combine dget]; [destruct (i - n0); reflexivity|].
    destruct (String.eqb_spec (model_name i) (model_name n0)) as [E|E].
    - apply name_inj in E. subst. rewrite Nat.sub_diag. reflexivity.
    - assert (i <> n0) by congruence. rewrite IH by lia. replace (i - n0) with (S (i - S n0)) by lia. reflexivity. }
  rewrite HG by lia. rewrite Nat.sub_0_r. reflexivity.
Qed.

Definition getm (h : M) ms k := match dget k (sub_components h ms) with Some m => [m] | None => [] end.

Lemma models_eq (h : M) ms : ms <> [] -> models_of (sub_components h ms) = Some (flat_map (getm h ms) (ssort (names (length ms)))).
Proof.
  intros H. unfold models_of. rewrite names_filter.
  assert (E : dmem (model_name 0) (sub_components h ms) = true); [|rewrite E; reflexivity].
  unfold dmem. rewrite name_get. destruct ms; [congruence|reflexivity].
Qed.

Lemma getm_names (h : M) ms : flat_map (getm h ms) (names (length ms)) = ms.
Proof.
  unfold names. rewrite flat_map_concat_map, map_map.
  assert (HG : forall l n0, (forall i, n0 <= i -> nth_error ms i = nth_error l (i - n0)) -> concat (map (fun i => getm h ms (model_name i)) (seq n0 (length l))) = l).
  { induction l as [|m l IH]; intros n0 Hn; [reflexivity|]. cbn [length seq map concat]. unfold getm at 1. rewrite name_get, Hn, Nat.sub_diag by lia. cbn [nth_error app].
    f_equal. apply IH. intros i Hi. rewrite Hn by lia. replace (i - n0) with (S (i - S n0)) by lia. reflexivity. }
  apply HG. intros i _. rewrite Nat.sub_0_r. reflexivity.
Qed.

Lemma names_sorted n : n <= Nat.of_num_uint 10000%uint -> StronglySorted slt (names n).
Proof.
  intros Hn. unfold names. pose proof name_lt as HL. revert HL Hn. generalize (Nat.of_num_uint 10000%uint). intros N HL Hn.
  assert (HG : forall k n0, n0 + k <= N -> StronglySorted slt (map model_name (seq n0 k))).
  { induction k as [|k IH]; intros n0 Hk; cbn [seq map]; [constructor|]. constructor; [apply IH; lia|].
    apply Forall_forall. intros x Hx. apply in_map_iff in Hx. destruct Hx as (j & <- & Hj). apply in_seq in Hj. apply HL; lia. }
  apply HG. lia.
Qed.

(** Equal results force equal orders. *)
Lemma getm_inj (h : M) ms : NoDup ms -> forall a b, (forall x, In x a \/ In x b -> In x (names (length ms))) -> length a = length b ->
  flat_map (getm h ms) a = flat_map (getm h ms) b -> a = b.
Proof.
  intros HN. induction a as [|x a IH]; intros [|y b] HI HL HE; try discriminate; [reflexivity|].
  assert (HS : forall z, In z (names (length ms)) -> exists i m, z = model_name i /\ nth_error ms i = Some m /\ getm h ms z = [m]).
  { intros z Hz. apply in_map_iff in Hz. destruct Hz as (i & <- & Hi). apply in_seq in Hi. destruct (nth_error ms i) as [m|] eqn:E.
    - exists i, m. split; [reflexivity|]. split; [exact E|]. unfold getm. rewrite name_get, E. reflexivity.
    - apply nth_error_None in E. lia. }
  destruct (HS x) as (i & m & -> & Ei & Gi); [apply HI; left; left; reflexivity|].
  destruct (HS y) as (j & m' & -> & Ej & Gj); [apply HI; right; left; reflexivity|].
  cbn [flat_map] in HE. rewrite Gi, Gj in HE. cbn [app] in HE. injection HE as <- HE.
  assert (i = j). { apply (proj1 (NoDup_nth_error ms) HN); [apply nth_error_Some; congruence|congruence]. }
  subst j. f_equal. apply IH; [|cbn in HL; lia|exact HE]. intros z [Hz|Hz]; apply HI; [left|right]; right; exact Hz.
Qed.

Lemma sorted_pair l i j x y : Sorted (fun a b => String.compare a b <> Gt) l -> i <= j -> nth_error l i = Some x -> nth_error l j = Some y -> String.compare x y <> Gt.
Proof.
  intros HS. apply Sorted_StronglySorted in HS; [|intros a b c; apply le_trans].
  revert i j. induction HS as [|z l HS IH HF]; intros i j Hij Hi Hj; [destruct i; discriminate|].
  destruct j as [|j]; [destruct i; [|lia]; cbn in *; assert (x = y) by congruence; subst; rewrite scompare_refl; discriminate|].
  destruct i as [|i]; [|apply (IH i j); [lia|exact Hi|exact Hj]].
  cbn in Hi, Hj. injection Hi as <-. rewrite Forall_forall in HF. apply HF. eapply nth_error_In. exact Hj.
Qed.
End Members.

Lemma wrong_pair : String.compare (model_name (Nat.of_num_uint 1001%uint)) (model_name (Nat.of_num_uint 10000%uint)) = Gt.
Proof. vm_compute. reflexivity. Qed.

Lemma wrong_order : Nat.of_num_uint 1001%uint <= Nat.of_num_uint 10000%uint.
Proof. apply Nat.leb_le. vm_compute. reflexivity. Qed.
