(** Facts about the Python vocabulary of [Py.v]. *)
From Verif Require Import Py.

(** ** Dictionaries *)

Lemma eqb_spec_refl (s : string) : String.eqb s s = true.
Proof. apply String.eqb_refl. Qed.

Lemma dget_In {A} k (v : A) d : dget k d = Some v -> In (k, v) d.
Proof.
  induction d as [|[k' v'] d IH]; simpl; [discriminate|].
  destruct (String.eqb_spec k k') as [->|Hne]; intros H.
  - inversion H; subst; left; reflexivity.
  - right; auto.
Qed.

Lemma dget_None_iff {A} k (d : dict A) : dget k d = None <-> ~ In k (dkeys d).
Proof.
  induction d as [|[k' v'] d IH]; simpl; [tauto|].
  destruct (String.eqb_spec k k') as [->|Hne].
  - split; [discriminate|]. intros H; exfalso; apply H; left; reflexivity.
  - rewrite IH. intuition congruence.
Qed.

Lemma dget_Some_In_keys {A} k (v : A) d : dget k d = Some v -> In k (dkeys d).
Proof. intros H; apply dget_In in H; apply (in_map fst) in H; exact H. Qed.

Lemma In_keys_dget {A} k (d : dict A) : In k (dkeys d) -> exists v, dget k d = Some v.
Proof.
  intros H. destruct (dget k d) as [v|] eqn:E; [eauto|].
  apply dget_None_iff in E; contradiction.
Qed.

Lemma dmem_In {A} k (d : dict A) : dmem k d = true <-> In k (dkeys d).
Proof.
  unfold dmem. destruct (dget k d) eqn:E; split; intros H; try reflexivity; try discriminate.
  - eapply dget_Some_In_keys; eauto.
  - apply dget_None_iff in E; contradiction.
Qed.

Lemma dmem_false {A} k (d : dict A) : dmem k d = false <-> dget k d = None.
Proof. unfold dmem; destruct (dget k d); split; congruence. Qed.

Lemma In_dget {A} k (v : A) d : dwf d -> In (k, v) d -> dget k d = Some v.
Proof.
  unfold dwf. induction d as [|[k' v'] d IH]; simpl; [tauto|].
  intros Hnd [H|H].
  - inversion H; subst. rewrite String.eqb_refl; reflexivity.
  - inversion Hnd; subst. destruct (String.eqb_spec k k') as [->|Hne].
    + exfalso. apply (in_map fst) in H. contradiction.
    + auto.
Qed.

Lemma dget_dset_same {A} k (v : A) d : dget k (dset k v d) = Some v.
Proof.
  induction d as [|[k' v'] d IH]; simpl.
  - rewrite String.eqb_refl; reflexivity.
  - destruct (String.eqb_spec k k') as [->|Hne]; simpl.
    + rewrite String.eqb_refl; reflexivity.
    + destruct (String.eqb_spec k k'); [contradiction|exact IH].
Qed.

Lemma dget_dset_other {A} k k' (v : A) d : k <> k' -> dget k (dset k' v d) = dget k d.
Proof.
  intros Hne. induction d as [|[k2 v2] d IH]; simpl.
  - destruct (String.eqb_spec k k'); [contradiction|reflexivity].
  - destruct (String.eqb_spec k' k2) as [->|Hne2]; simpl.
    + destruct (String.eqb_spec k k2); [contradiction|reflexivity].
    + destruct (String.eqb_spec k k2); [reflexivity|exact IH].
Qed.

Lemma dkeys_dset_mem {A} k (v : A) d : dmem k d = true -> dkeys (dset k v d) = dkeys d.
Proof.
  induction d as [|[k2 v2] d IH]; [discriminate|]. unfold dmem; simpl.
  destruct (String.eqb_spec k k2) as [->|Hne]; simpl; [reflexivity|].
  intros H. f_equal. apply IH. exact H.
Qed.

Lemma dkeys_dset_not {A} k (v : A) d : dmem k d = false -> dkeys (dset k v d) = dkeys d ++ [k].
Proof.
  induction d as [|[k2 v2] d IH]; [reflexivity|]. unfold dmem; simpl.
  destruct (String.eqb_spec k k2) as [->|Hne]; simpl; [discriminate|].
  intros H. f_equal. apply IH. exact H.
Qed.

Lemma In_dkeys_dset {A} k k' (v : A) d : In k (dkeys (dset k' v d)) <-> k = k' \/ In k (dkeys d).
Proof.
  induction d as [|[k2 v2] d IH]; simpl; [intuition congruence|].
  destruct (String.eqb_spec k' k2) as [->|Hne]; simpl; [intuition congruence|].
  rewrite IH. intuition congruence.
Qed.

Lemma NoDup_app_snoc {A} (l : list A) x : NoDup l -> ~ In x l -> NoDup (l ++ [x]).
Proof.
  induction l as [|y l IH]; simpl; intros Hnd Hx.
  - constructor; auto.
  - inversion Hnd; subst. constructor.
    + rewrite in_app_iff; simpl. intuition congruence.
    + apply IH; auto.
Qed.

Lemma dwf_dset {A} k (v : A) d : dwf d -> dwf (dset k v d).
Proof.
  unfold dwf; intros H. destruct (dmem k d) eqn:E.
  - rewrite dkeys_dset_mem; auto.
  - rewrite dkeys_dset_not; auto. apply NoDup_app_snoc; auto.
    rewrite <- dmem_In. congruence.
Qed.

Lemma dwf_dupdate {A} (e d : dict A) : dwf d -> dwf (dupdate d e).
Proof.
  unfold dupdate. revert d. induction e as [|[k v] e IH]; simpl; intros d H; [exact H|].
  apply IH. apply dwf_dset; exact H.
Qed.

Lemma dget_dupdate {A} (e d : dict A) k : dwf e ->
  dget k (dupdate d e) = match dget k e with Some v => Some v | None => dget k d end.
Proof.
  unfold dupdate, dwf. revert d. induction e as [|[k' v'] e IH]; simpl; intros d Hnd; [reflexivity|].
  inversion Hnd; subst. rewrite IH by assumption.
  destruct (String.eqb_spec k k') as [->|Hne].
  - assert (E : dget k' e = None) by (apply dget_None_iff; assumption).
    rewrite E. apply dget_dset_same.
  - destruct (dget k e); [reflexivity|]. apply dget_dset_other; exact Hne.
Qed.

Lemma dget_ddel_same {A} k (d : dict A) : dwf d -> dget k (ddel k d) = None.
Proof.
  unfold dwf. induction d as [|[k' v'] d IH]; simpl; intros H; [reflexivity|].
  inversion H; subst. destruct (String.eqb_spec k k') as [->|Hne]; simpl.
  - apply dget_None_iff; assumption.
  - destruct (String.eqb_spec k k'); [contradiction|]. auto.
Qed.

Lemma dget_ddel_other {A} k k' (d : dict A) : k <> k' -> dget k (ddel k' d) = dget k d.
Proof.
  intros Hne. induction d as [|[k2 v2] d IH]; simpl; [reflexivity|].
  destruct (String.eqb_spec k' k2) as [->|Hne2]; simpl.
  - destruct (String.eqb_spec k k2); [contradiction|reflexivity].
  - destruct (String.eqb_spec k k2); [reflexivity|exact IH].
Qed.

Lemma In_ddel {A} k kv (d : dict A) : In kv (ddel k d) -> In kv d.
Proof.
  induction d as [|[k2 v2] d IH]; simpl; [tauto|].
  destruct (String.eqb k k2); simpl; tauto.
Qed.

Lemma dwf_ddel {A} k (d : dict A) : dwf d -> dwf (ddel k d).
Proof.
  unfold dwf. induction d as [|[k2 v2] d IH]; simpl; intros H; [exact H|].
  inversion H; subst. destruct (String.eqb k k2); [assumption|]. simpl. constructor; auto.
  intros Hin. apply in_map_iff in Hin. destruct Hin as [[k3 v3] [E Hin]]; simpl in E; subst.
  apply In_ddel in Hin. apply (in_map fst) in Hin. contradiction.
Qed.

Lemma smem_In s l : smem s l = true <-> In s l.
Proof.
  unfold smem. rewrite existsb_exists. split.
  - intros [x [Hin He]]. apply String.eqb_eq in He; subst; exact Hin.
  - intros H. exists s; split; [exact H|apply String.eqb_refl].
Qed.

Lemma smem_false s l : smem s l = false <-> ~ In s l.
Proof. rewrite <- smem_In. destruct (smem s l); split; congruence. Qed.

Lemma same_names_spec a b : same_names a b = true <-> (forall x, In x a <-> In x b).
Proof.
  unfold same_names. rewrite andb_true_iff, !forallb_forall. split.
  - intros [H1 H2] x. split; intros Hin; apply smem_In; auto.
  - intros H. split; intros x Hin; apply smem_In; apply H; exact Hin.
Qed.

(** ** Induction on values *)

Definition value_ind' (P : value -> Prop)
  (Hnone : P VNone) (Hbool : forall b, P (VBool b)) (Hint : forall z, P (VInt z))
  (Hstr : forall s, P (VStr s))
  (Hlist : forall l, Forall P l -> P (VList l))
  (Htuple : forall l, Forall P l -> P (VTuple l))
  (Hdict : forall d, Forall (fun kv => P (snd kv)) d -> P (VDict d)) :
  forall v, P v :=
  fix F (v : value) : P v :=
    match v with
    | VNone => Hnone
    | VBool b => Hbool b
    | VInt z => Hint z
    | VStr s => Hstr s
    | VList l => Hlist l ((fix G (l : list value) : Forall P l :=
        match l with [] => Forall_nil _ | x :: l' => Forall_cons _ (F x) (G l') end) l)
    | VTuple l => Htuple l ((fix G (l : list value) : Forall P l :=
        match l with [] => Forall_nil _ | x :: l' => Forall_cons _ (F x) (G l') end) l)
    | VDict d => Hdict d ((fix G (d : list (string * value)) : Forall (fun kv => P (snd kv)) d :=
        match d with [] => Forall_nil _ | kv :: d' => Forall_cons _ (F (snd kv)) (G d') end) d)
    end.

Lemma veqb_list l m : veqb (VList l) (VList m) = list_eqb veqb l m.
Proof. revert m; induction l as [|x l IH]; destruct m; simpl; auto. f_equal. apply IH. Qed.

Lemma veqb_tuple l m : veqb (VTuple l) (VTuple m) = list_eqb veqb l m.
Proof. revert m; induction l as [|x l IH]; destruct m; simpl; auto. f_equal. apply IH. Qed.

Lemma veqb_dict d e : veqb (VDict d) (VDict e) = deqb d e.
Proof.
  unfold deqb. simpl. f_equal. generalize e at 1 2 as e'. intros e'.
  induction d as [|[k x] d IH]; simpl; auto.
  destruct (dget k e'); simpl; auto. f_equal; auto.
Qed.

Lemma list_eqb_refl {A} (f : A -> A -> bool) l : Forall (fun x => f x x = true) l -> list_eqb f l l = true.
Proof. induction 1; simpl; auto. rewrite H, IHForall; reflexivity. Qed.

Lemma deqb_refl_gen (d : dict value) : dwf d -> Forall (fun kv => veqb (snd kv) (snd kv) = true) d ->
  deqb d d = true.
Proof.
  intros Hwf Hall. unfold deqb. rewrite Nat.eqb_refl; simpl. apply forallb_forall.
  intros [k v] Hin; simpl. rewrite (In_dget k v d Hwf Hin).
  rewrite Forall_forall in Hall. exact (Hall _ Hin).
Qed.

Lemma veqb_refl v : vwf v -> veqb v v = true.
Proof.
  induction v using value_ind'; intros Hwf; inversion Hwf; subst.
  - reflexivity.
  - destruct b; reflexivity.
  - simpl. apply Z.eqb_refl.
  - simpl. apply String.eqb_refl.
  - rewrite veqb_list. apply list_eqb_refl.
    rewrite Forall_forall in *. intros x Hx. apply H; auto.
  - rewrite veqb_tuple. apply list_eqb_refl.
    rewrite Forall_forall in *. intros x Hx. apply H; auto.
  - rewrite veqb_dict. apply deqb_refl_gen; auto.
    rewrite Forall_forall in *. intros x Hx. apply H; auto.
Qed.

Lemma deqb_refl d : dvwf d -> deqb d d = true.
Proof.
  intros [Hwf Hall]. apply deqb_refl_gen; auto.
  rewrite Forall_forall in *. intros x Hx. apply veqb_refl; auto.
Qed.

(** [deqb] characterised as equality of maps. *)
Lemma deqb_true_iff d e : dwf d -> dwf e ->
  (deqb d e = true <->
   (forall k, In k (dkeys d) <-> In k (dkeys e)) /\
   (forall k v w, dget k d = Some v -> dget k e = Some w -> veqb v w = true)).
Proof.
  intros Hd He. unfold deqb. rewrite andb_true_iff, Nat.eqb_eq, forallb_forall. split.
  - intros [Hlen Hall].
    assert (Hincl : incl (dkeys d) (dkeys e)).
    { intros k Hk. apply In_keys_dget in Hk. destruct Hk as [v Hv]. apply dget_In in Hv.
      specialize (Hall _ Hv). simpl in Hall. destruct (dget k e) eqn:E; [|discriminate].
      eapply dget_Some_In_keys; eauto. }
    assert (Hincl2 : incl (dkeys e) (dkeys d)).
    { apply NoDup_length_incl; auto. unfold dkeys; rewrite !map_length. lia. }
    split.
    + intros k; split; auto.
    + intros k v w Hv Hw. apply dget_In in Hv. specialize (Hall _ Hv). simpl in Hall.
      rewrite Hw in Hall. exact Hall.
  - intros [Hkeys Hval]. split.
    + assert (length (dkeys d) = length (dkeys e)) as Hl.
      { apply Nat.le_antisymm; apply NoDup_incl_length; auto; intros k; apply Hkeys. }
      unfold dkeys in Hl; rewrite !map_length in Hl; exact Hl.
    + intros [k v] Hin; simpl. apply In_dget in Hin; auto.
      destruct (In_keys_dget k e) as [w Hw].
      { apply Hkeys. eapply dget_Some_In_keys; eauto. }
      rewrite Hw. eauto.
Qed.

Lemma list_eqb_sym_gen (l m : list value) :
  Forall (fun x => forall y, vwf x -> vwf y -> veqb x y = veqb y x) l ->
  Forall vwf l -> Forall vwf m -> list_eqb veqb l m = list_eqb veqb m l.
Proof.
  intros H. revert m. induction H as [|x l Hx Hl IH]; intros m Hwl Hwm; destruct m; simpl; auto.
  inversion Hwl; inversion Hwm; subst. rewrite Hx, IH; auto.
Qed.

Lemma deqb_sym_gen (d e : dict value) :
  Forall (fun kv => forall y, vwf (snd kv) -> vwf y -> veqb (snd kv) y = veqb y (snd kv)) d ->
  dvwf d -> dvwf e -> deqb d e = deqb e d.
Proof.
  intros H [Hwd Hvd] [Hwe Hve].
  assert (Hs : forall k v w, dget k d = Some v -> dget k e = Some w -> veqb v w = veqb w v).
  { intros k v w Hv Hw. apply dget_In in Hv. apply dget_In in Hw.
    rewrite Forall_forall in *. apply (H _ Hv); [apply (Hvd _ Hv)|apply (Hve _ Hw)]. }
  apply eq_true_iff_eq. rewrite (deqb_true_iff d e), (deqb_true_iff e d) by assumption.
  split; intros [Hk Hv]; split; try (intros k; symmetry; apply Hk).
  - intros k v w Ha Hb. rewrite <- (Hs k w v) by assumption. eauto.
  - intros k v w Ha Hb. rewrite (Hs k v w) by assumption. eauto.
Qed.

Lemma veqb_sym v : forall w, vwf v -> vwf w -> veqb v w = veqb w v.
Proof.
  induction v using value_ind'; intros w Hv Hw; destruct w;
    try reflexivity;
    try (destruct b; reflexivity);
    try (simpl; destruct b; try destruct b0; reflexivity).
  - simpl. destruct b; apply Z.eqb_sym.
  - simpl. destruct b; apply Z.eqb_sym.
  - simpl. apply Z.eqb_sym.
  - simpl. apply String.eqb_sym.
  - rewrite !veqb_list. inversion Hv; inversion Hw; subst. apply list_eqb_sym_gen; auto.
  - rewrite !veqb_tuple. inversion Hv; inversion Hw; subst. apply list_eqb_sym_gen; auto.
  - rewrite !veqb_dict. inversion Hv; inversion Hw; subst. apply deqb_sym_gen; auto; split; auto.
Qed.

Lemma deqb_sym d e : dvwf d -> dvwf e -> deqb d e = deqb e d.
Proof.
  intros Hd He. rewrite <- !veqb_dict. apply veqb_sym; constructor; apply Hd || apply He.
Qed.

Lemma veqb_numeric v w : numeric v <> None ->
  veqb v w = match numeric v, numeric w with Some a, Some b => Z.eqb a b | _, _ => false end.
Proof. destruct v; simpl; try congruence; destruct w; reflexivity. Qed.

Lemma numeric_veqb v w : numeric v <> None -> veqb v w = true -> numeric w = numeric v.
Proof.
  intros Hv H. rewrite veqb_numeric in H by exact Hv.
  destruct (numeric v); [|congruence]. destruct (numeric w); [|discriminate].
  apply Z.eqb_eq in H; congruence.
Qed.

Lemma veqb_trans v : forall w u, vwf v -> vwf w -> vwf u ->
  veqb v w = true -> veqb w u = true -> veqb v u = true.
Proof.
  induction v using value_ind'; intros w u Hv Hw Hu H1 H2.
  - destruct w; try discriminate; try (destruct b; discriminate). exact H2.
  - assert (E : numeric w = numeric (VBool b)) by (apply numeric_veqb; auto; destruct b; discriminate).
    assert (numeric w <> None) by (rewrite E; destruct b; discriminate).
    assert (E2 : numeric u = numeric w) by (apply numeric_veqb; auto).
    rewrite veqb_numeric by (destruct b; discriminate). rewrite E2, E.
    destruct b; apply Z.eqb_refl.
  - assert (E : numeric w = numeric (VInt z)) by (apply numeric_veqb; auto; discriminate).
    assert (numeric w <> None) by (rewrite E; discriminate).
    assert (E2 : numeric u = numeric w) by (apply numeric_veqb; auto).
    rewrite veqb_numeric by discriminate. rewrite E2, E. apply Z.eqb_refl.
  - destruct w; try discriminate; try (destruct b; discriminate).
    simpl in H1. apply String.eqb_eq in H1. subst. exact H2.
  - destruct w; try discriminate; try (destruct b; discriminate).
    destruct u; try discriminate; try (destruct b; discriminate).
    rewrite veqb_list in *. rename l0 into m; rename l1 into n.
    assert (Wl0 : Forall vwf l) by (inversion Hv; assumption).
    assert (Wm0 : Forall vwf m) by (inversion Hw; assumption).
    assert (Wn0 : Forall vwf n) by (inversion Hu; assumption).
    clear Hv Hw Hu.
    revert m n H1 H2 Wl0 Wm0 Wn0. induction H as [|x l Hx Hl IH]; intros m n H1 H2 Wl Wm Wn;
      destruct m; simpl in *; try discriminate; destruct n; simpl in *; try discriminate; auto.
    apply andb_true_iff in H1; destruct H1. apply andb_true_iff in H2; destruct H2.
    inversion Wl; inversion Wm; inversion Wn; subst. apply andb_true_iff; split; eauto.
  - destruct w; try discriminate; try (destruct b; discriminate).
    destruct u; try discriminate; try (destruct b; discriminate).
    rewrite veqb_tuple in *. rename l0 into m; rename l1 into n.
    assert (Wl0 : Forall vwf l) by (inversion Hv; assumption).
    assert (Wm0 : Forall vwf m) by (inversion Hw; assumption).
    assert (Wn0 : Forall vwf n) by (inversion Hu; assumption).
    clear Hv Hw Hu.
    revert m n H1 H2 Wl0 Wm0 Wn0. induction H as [|x l Hx Hl IH]; intros m n H1 H2 Wl Wm Wn;
      destruct m; simpl in *; try discriminate; destruct n; simpl in *; try discriminate; auto.
    apply andb_true_iff in H1; destruct H1. apply andb_true_iff in H2; destruct H2.
    inversion Wl; inversion Wm; inversion Wn; subst. apply andb_true_iff; split; eauto.
  - destruct w; try discriminate; try (destruct b; discriminate).
    destruct u; try discriminate; try (destruct b; discriminate).
    rewrite veqb_dict in *. inversion Hv as [| | | | | |d' Hd1 Hd2]; inversion Hw as [| | | | | |e' He1 He2];
      inversion Hu as [| | | | | |f' Hf1 Hf2]; subst.
    rewrite deqb_true_iff in * by assumption. destruct H1 as [K1 V1], H2 as [K2 V2]. split.
    + intros k. rewrite K1. apply K2.
    + intros k a c Ha Hc. destruct (In_keys_dget k d0) as [b0 Hb].
      { apply K1. eapply dget_Some_In_keys; eauto. }
      rewrite Forall_forall in *.
      apply (H (k, a) (dget_In _ _ _ Ha) b0 c); simpl.
      * apply (Hd2 (k, a)); auto using dget_In.
      * apply (He2 (k, b0)); auto using dget_In.
      * apply (Hf2 (k, c)); auto using dget_In.
      * eauto.
      * eauto.
Qed.

Lemma deqb_trans d e f : dvwf d -> dvwf e -> dvwf f ->
  deqb d e = true -> deqb e f = true -> deqb d f = true.
Proof.
  rewrite <- !veqb_dict. intros Hd He Hf. apply veqb_trans; constructor; apply Hd || apply He || apply Hf.
Qed.
