(** Lemmas about tensor lists. *)
From Verif Require Import Py PyFacts M_Tensor S_Tensor.
From Coq Require Import Sorting.Sorted.

(** ** String order *)

Lemma scompare_refl s : String.compare s s = Eq.
Proof.
  induction s as [|a s IH]; simpl; [reflexivity|].
  unfold Ascii.compare. rewrite N.compare_refl. exact IH.
Qed.

Lemma slt_trans a : forall b c, String.compare a b = Lt -> String.compare b c = Lt -> String.compare a c = Lt.
Proof.
  induction a as [|x a IH]; intros [|y b] [|z c] H1 H2; simpl in *; try discriminate; try reflexivity.
  unfold Ascii.compare in *.
  destruct (N.compare (N_of_ascii x) (N_of_ascii y)) eqn:E1; [| |discriminate];
  destruct (N.compare (N_of_ascii y) (N_of_ascii z)) eqn:E2; try discriminate.
  - apply N.compare_eq_iff in E1, E2. rewrite E1, E2, N.compare_refl. eauto.
  - apply N.compare_eq_iff in E1. rewrite E1, E2. reflexivity.
  - apply N.compare_eq_iff in E2. rewrite <- E2, E1. reflexivity.
  - assert (E : N.compare (N_of_ascii x) (N_of_ascii z) = Lt); [|rewrite E; reflexivity].
    apply (proj1 (N.compare_lt_iff _ _)) in E1, E2. apply (proj2 (N.compare_lt_iff _ _)). eapply N.lt_trans; eassumption.
Qed.

Lemma sltb_lt a b : String.ltb a b = true <-> String.compare a b = Lt.
Proof. unfold String.ltb. destruct (String.compare a b); split; intros; congruence. Qed.

Lemma sltb_trans a b c : String.ltb a b = true -> String.ltb b c = true -> String.ltb a c = true.
Proof. rewrite !sltb_lt. apply slt_trans. Qed.

Lemma sltb_irrefl a : String.ltb a a = false.
Proof. unfold String.ltb. rewrite scompare_refl. reflexivity. Qed.

Lemma sleb_neq_ltb a b : String.leb a b = true -> a <> b -> String.ltb a b = true.
Proof.
  unfold String.leb, String.ltb. destruct (String.compare a b) eqn:E; try congruence.
  apply String.compare_eq_iff in E. congruence.
Qed.

Lemma sleb_false a b : String.leb a b = false -> String.ltb b a = true.
Proof.
  unfold String.leb, String.ltb. rewrite (String.compare_antisym b a).
  destruct (String.compare a b); simpl; congruence.
Qed.

(** ** Sorting *)

Lemma insert_perm t l : Permutation (t :: l) (insert_by_name t l).
Proof.
  induction l as [|u l IH]; simpl; [constructor; constructor|].
  destruct (String.leb _ _); [reflexivity|]. etransitivity; [apply perm_swap|]. constructor. exact IH.
Qed.

Lemma sort_perm l : Permutation l (sort_by_name l).
Proof.
  induction l as [|t l IH]; simpl; [constructor|].
  etransitivity; [constructor; exact IH|]. apply insert_perm.
Qed.

Lemma insert_sorted t l : SortedByName l -> ~ In (t_name t) (map t_name l) -> SortedByName (insert_by_name t l).
Proof.
  induction l as [|u l IH]; intros Hs Hn; simpl; [repeat constructor|].
  inversion Hs as [|? ? Hs' Hall]; subst.
  assert (Hne : t_name t <> t_name u) by (intros E; apply Hn; left; symmetry; exact E).
  destruct (String.leb (t_name t) (t_name u)) eqn:E.
  - apply sleb_neq_ltb in E; [|exact Hne]. constructor; [exact Hs|]. constructor; [exact E|].
    rewrite Forall_forall in *. intros x Hx. eapply sltb_trans; [exact E|auto].
  - apply sleb_false in E. constructor.
    + apply IH; [exact Hs'|]. intros Hin; apply Hn; right; exact Hin.
    + rewrite Forall_forall in *. intros x Hx.
      apply (Permutation_in _ (Permutation_sym (insert_perm t l))) in Hx.
      destruct Hx as [<-|Hx]; [exact E|auto].
Qed.

Lemma sort_sorted l : NoDup (map t_name l) -> SortedByName (sort_by_name l).
Proof.
  induction l as [|t l IH]; simpl; intros H; [constructor|]. inversion H; subst.
  apply insert_sorted; [auto|]. intros Hin.
  apply (Permutation_in _ (Permutation_map t_name (Permutation_sym (sort_perm l)))) in Hin. contradiction.
Qed.

Lemma sorted_unique l : forall m, SortedByName l -> SortedByName m -> Permutation l m -> l = m.
Proof.
  induction l as [|t l IH]; intros m Hl Hm HP.
  - apply Permutation_nil in HP. congruence.
  - destruct m as [|u m]; [apply Permutation_sym, Permutation_nil in HP; discriminate|].
    inversion Hl as [|? ? Hl' Al]; inversion Hm as [|? ? Hm' Am]; subst.
    rewrite Forall_forall in Al, Am.
    assert (t = u).
    { pose proof (Permutation_in t HP (or_introl eq_refl)) as H1.
      pose proof (Permutation_in u (Permutation_sym HP) (or_introl eq_refl)) as H2.
      destruct H1 as [H1|H1]; [congruence|]. destruct H2 as [H2|H2]; [congruence|].
      apply Am in H1. apply Al in H2. pose proof (sltb_trans _ _ _ H1 H2) as H.
      rewrite sltb_irrefl in H. discriminate. }
    subst u. f_equal. apply IH; auto. eapply Permutation_cons_inv; exact HP.
Qed.

Lemma sort_of_sorted l : SortedByName l -> sort_by_name l = l.
Proof.
  intros H. symmetry. apply sorted_unique; [exact H| |apply sort_perm].
  apply sort_sorted. induction H as [|t l H IH Hall]; simpl; constructor; auto.
  rewrite in_map_iff. intros (x & Hx & Hin). rewrite Forall_forall in Hall. apply Hall in Hin.
  rewrite Hx, sltb_irrefl in Hin. discriminate.
Qed.

Lemma sorted_nodup l : SortedByName l -> NoDup (map t_name l).
Proof.
  intros H. induction H as [|t l H IH Hall]; simpl; constructor; auto.
  rewrite in_map_iff. intros (x & Hx & Hin). rewrite Forall_forall in Hall. apply Hall in Hin.
  rewrite Hx, sltb_irrefl in Hin. discriminate.
Qed.

Lemma has_dup_false l : has_dup l = false <-> NoDup l.
Proof.
  induction l as [|x l IH]; simpl; [split; [constructor|reflexivity]|].
  rewrite orb_false_iff, smem_false, IH. split.
  - intros [? ?]. constructor; assumption.
  - intros H; inversion H; auto.
Qed.

(** ** Lookups *)

Lemma combine_seq_dget names : forall k n i, NoDup names ->
  (dget n (combine names (seq k (length names))) = Some i <->
   k <= i /\ nth_error names (i - k) = Some n).
Proof.
  induction names as [|x names IH]; intros k n i Hnd; simpl.
  - split; [discriminate|]. intros [_ H]. destruct (i - k); discriminate.
  - inversion Hnd as [|? ? Hni Hnd']; subst. destruct (String.eqb n x) eqn:E.
    + apply String.eqb_eq in E. subst. split.
      * intros H; inversion H; subst. rewrite Nat.sub_diag. auto.
      * intros [Hk H]. destruct (i - k) as [|j] eqn:Ej; [f_equal; lia|].
        exfalso. apply Hni. simpl in H. eapply nth_error_In; exact H.
    + apply String.eqb_neq in E. rewrite IH by exact Hnd'. split.
      * intros [Hk H]. split; [lia|]. replace (i - k) with (S (i - S k)) by lia. exact H.
      * intros [Hk H]. destruct (i - k) as [|j] eqn:Ej; [simpl in H; congruence|].
        split; [lia|]. replace (i - S k) with j by lia. exact H.
Qed.

Lemma combine_seq_nlookup (names : list string) : forall k i,
  nlookup i (combine (seq k (length names)) names) = if (k <=? i)%nat then nth_error names (i - k) else None.
Proof.
  induction names as [|x names IH]; intros k i; simpl.
  - destruct ((k <=? i)%nat); [destruct (i - k); reflexivity|reflexivity].
  - destruct (Nat.eqb i k) eqn:E.
    + apply Nat.eqb_eq in E. subst. rewrite Nat.leb_refl, Nat.sub_diag. reflexivity.
    + apply Nat.eqb_neq in E. rewrite IH. destruct ((S k <=? i)%nat) eqn:E2.
      * apply Nat.leb_le in E2. rewrite (proj2 (Nat.leb_le k i)) by lia.
        replace (i - k) with (S (i - S k)) by lia. reflexivity.
      * apply Nat.leb_gt in E2. rewrite (proj2 (Nat.leb_gt k i)) by lia. reflexivity.
Qed.

Lemma init_inv ts tl : tensor_list_init ts = Ok tl ->
  NoDup (map t_name ts) /\ tl_list tl = sort_by_name ts /\
  tl_names tl = map t_name (tl_list tl) /\
  tl_name_dict tl = combine (tl_names tl) (seq 0 (length (tl_names tl))) /\
  tl_index_dict tl = combine (seq 0 (length (tl_names tl))) (tl_names tl).
Proof.
  unfold tensor_list_init. destruct (has_dup _) eqn:E; [discriminate|]. intros H; inversion H; subst. simpl.
  rewrite map_length. split; [apply has_dup_false; exact E|]. auto.
Qed.

(** ** Round trip *)

Section RoundTrip.
Variable np_has : string -> bool.

Lemma init_inv_tensor kw t : tensor_init np_has kw = Ok t ->
  t_shape t <> VNone /\ numeric (t_log_axis t) <> None /\
  smem (t_type t) ["data"; "label"; "weight"; "misc"; "prediction"] = true /\
  np_has (t_dtype t) = true /\
  match t_vector_info t with
  | VNone => True
  | VDict d => exists s, dget "type" d = Some (VStr s) /\ smem s ["index"; "value"] = true
  | _ => False
  end /\
  (forall b, t_log t <> VBool b) /\
  t_specs t = filter (fun kv => negb (smem (fst kv) tensor_params)) kw.
Proof.
  unfold tensor_init. destruct (dget "name" kw) as [[]|]; try discriminate.
  destruct (dget "shape" kw) as [shape|]; try discriminate.
  destruct (dget "tensor_type" kw) as [[]|]; try discriminate.
  destruct (dget "dtype" kw) as [dtype|]; try discriminate.
  set (vinfo := match dget "vector_info" kw with Some v => v | None => VNone end).
  set (lax := match dget "trafo_log_axis" kw with Some v => v | None => VInt (-1) end).
  set (log := match dget "trafo_log" kw with Some v => v | None => VNone end).
  clearbody vinfo lax log.
  assert (Hsh : forall (r : result tensor), match shape with VNone => Err ValueError | _ => r end = Ok t ->
     shape <> VNone /\ r = Ok t) by (intros r Hr; destruct shape; try discriminate; split; congruence).
  intros H. apply Hsh in H. clear Hsh. destruct H as [Hs H].
  destruct (numeric lax) as [ax|] eqn:Eax; [|discriminate].
  destruct (smem s0 _) eqn:Ety; cbn [negb] in H; [|discriminate].
  destruct dtype as [| | |dt| | |]; try discriminate.
  destruct (np_has dt) eqn:Edt; cbn [negb] in H; [|discriminate].
  match type of H with match ?x with _ => _ end = _ => destruct x eqn:Evi; [discriminate|] end.
  match type of H with match ?x with _ => _ end = _ => destruct x as [log'|] eqn:Elog; [|discriminate] end.
  inversion H; subst; cbn [t_shape t_log_axis t_type t_dtype t_vector_info t_log t_specs]. split; [exact Hs|]. split; [congruence|]. split; [exact Ety|]. split; [exact Edt|].
  split; [|split; [|reflexivity]].
  - destruct vinfo; try discriminate; [trivial|].
    destruct (dget "type" d) as [[]|]; try discriminate. eexists; split; [reflexivity|].
    destruct (smem s1 _) eqn:E1; [reflexivity|discriminate].
  - intros b Hb. subst log'. destruct log; try discriminate.
    destruct (as_seq shape); [|discriminate]. destruct (py_nth _ _) as [v|]; [|discriminate].
    destruct v; cbn [numeric] in Elog; try discriminate. destruct b1; discriminate.
Qed.

Lemma dset_app_new {A} k (v : A) d : dmem k d = false -> dset k v d = d ++ [(k, v)].
Proof.
  unfold dmem. induction d as [|[k' v'] d IH]; simpl; [reflexivity|].
  destruct (String.eqb k k') eqn:E; [discriminate|]. intros H. rewrite IH by exact H. reflexivity.
Qed.

Definition is_ser (k : string) := String.eqb k "type" || String.eqb k "specs".

(** Adding the extra specifications to the serialised fields and deleting the
    two serialisation fields. *)
Definition fields (t : tensor) : dict value :=
  [("name", VStr (t_name t)); ("shape", t_shape t);
   ("dtype", VStr (t_dtype t)); ("exists", t_exists t); ("vector_info", t_vector_info t);
   ("trafo", t_trafo t); ("trafo_reduce_axes", t_reduce_axes t); ("trafo_log", t_log t);
   ("trafo_log_axis", t_log_axis t); ("trafo_batch_axis", t_batch_axis t);
   ("tensor_type", VStr (t_type t))].

Lemma ddel_dset_same {A} k (v : A) d : dwf d -> ddel k (dset k v d) = ddel k d.
Proof.
  induction d as [|[k' v'] d IH]; simpl; intros Hwf; [rewrite String.eqb_refl; reflexivity|].
  destruct (String.eqb k k') eqn:E; simpl; rewrite E; [reflexivity|].
  f_equal. apply IH. inversion Hwf; assumption.
Qed.

Lemma ddel_dset_other {A} k k' (v : A) d : k <> k' -> ddel k (dset k' v d) = dset k' v (ddel k d).
Proof.
  intros Hne. induction d as [|[j w] d IH]; simpl.
  - apply String.eqb_neq in Hne. rewrite Hne. reflexivity.
  - destruct (String.eqb k' j) eqn:E; simpl.
    + apply String.eqb_eq in E. subst j. pose proof (proj2 (String.eqb_neq k k') Hne) as E2. rewrite E2.
      simpl. rewrite String.eqb_refl. reflexivity.
    + destruct (String.eqb k j) eqn:E2; [reflexivity|]. simpl. rewrite E, IH. reflexivity.
Qed.

Lemma ddel_dupdate {A} k (e : dict A) : forall d, dwf d ->
  ddel k (dupdate d e) = dupdate (ddel k d) (filter (fun kv => negb (String.eqb (fst kv) k)) e).
Proof.
  unfold dupdate. induction e as [|[j w] e IH]; intros d Hwf; simpl; [reflexivity|].
  rewrite IH by (apply dwf_dset; exact Hwf).
  destruct (String.eqb j k) eqn:E; simpl.
  - apply String.eqb_eq in E. subst. rewrite ddel_dset_same by exact Hwf. reflexivity.
  - apply String.eqb_neq in E. rewrite ddel_dset_other by congruence. reflexivity.
Qed.

Lemma dupdate_app_new {A} (e : dict A) : forall d, dwf e ->
  (forall k, In k (dkeys e) -> dmem k d = false) -> dupdate d e = d ++ e.
Proof.
  unfold dupdate. induction e as [|[k v] e IH]; intros d Hwf Hn; simpl; [rewrite app_nil_r; reflexivity|].
  inversion Hwf as [|? ? Hni Hwf']; subst.
  rewrite dset_app_new by (apply Hn; left; reflexivity). rewrite IH.
  - rewrite <- app_assoc. reflexivity.
  - exact Hwf'.
  - intros j Hj. specialize (Hn j (or_intror Hj)). apply dmem_false in Hn. apply dmem_false.
    apply dget_None_iff in Hn. apply dget_None_iff. unfold dkeys. rewrite map_app. intros Hin.
    apply in_app_or in Hin. destruct Hin as [Hin|[<-|[]]]; [contradiction|]. exact (Hni Hj).
Qed.

Lemma filter_filter {A} (f g : A -> bool) l : filter f (filter g l) = filter (fun x => g x && f x) l.
Proof.
  induction l as [|x l IH]; simpl; [reflexivity|]. destruct (g x); simpl; [destruct (f x)|]; rewrite IH; reflexivity.
Qed.

Lemma deserialize_one_fields t : dwf (t_specs t) ->
  (forall k, In k (dkeys (t_specs t)) -> smem k tensor_params = false) ->
  deserialize_one np_has (to_dict t) =
  tensor_init np_has (fields t ++ filter (fun kv => negb (is_ser (fst kv))) (t_specs t)).
Proof.
  intros Hwf Hk. unfold deserialize_one.
  change (dget "type" (to_dict t)) with (Some (VStr (t_type t))). cbv beta iota zeta.
  set (d1 := dset "tensor_type" (VStr (t_type t)) (to_dict t)).
  change (dget "specs" d1) with (Some (VDict (t_specs t))). cbv beta iota.
  assert (Hd1 : dwf d1) by (apply dwf_dset; repeat constructor; simpl; intuition discriminate).
  rewrite (ddel_dupdate "type") by exact Hd1.
  rewrite (ddel_dupdate "specs") by (apply dwf_ddel; exact Hd1).
  rewrite filter_filter.
  change (ddel "specs" (ddel "type" d1)) with (fields t).
  rewrite dupdate_app_new.
  - f_equal. f_equal. apply filter_ext. intros [k v]. unfold is_ser. simpl. rewrite negb_orb. reflexivity.
  - clear - Hwf. unfold dwf, dkeys in *. induction (t_specs t) as [|[k v] l IH]; simpl; [constructor|].
    inversion Hwf; subst. destruct (negb _ && _); simpl; [constructor; [|auto]|auto].
    intros Hin. match goal with H : ~ In _ _ |- _ => apply H end.
    apply in_map_iff in Hin. destruct Hin as ([k' v'] & Heq & Hin). apply filter_In in Hin. destruct Hin as [Hin _].
    simpl in Heq. subst. apply (in_map fst) in Hin. exact Hin.
  - intros k Hin. apply dmem_false. apply dget_None_iff. intros Hf.
    assert (Hin' : In k (dkeys (t_specs t))).
    { unfold dkeys in *. apply in_map_iff in Hin. destruct Hin as ([k' v'] & Heq & Hin). apply filter_In in Hin.
      destruct Hin as [Hin _]. apply (in_map fst) in Hin. rewrite <- Heq. exact Hin. }
    apply Hk in Hin'. apply smem_false in Hin'. apply Hin'.
    simpl in Hf |- *. intuition.
Qed.

Lemma dget_app {A} k (d e : dict A) : dget k (d ++ e) = match dget k d with Some v => Some v | None => dget k e end.
Proof. induction d as [|[j w] d IH]; simpl; [reflexivity|]. destruct (String.eqb k j); [reflexivity|exact IH]. Qed.

Lemma init_fields kw t : tensor_init np_has kw = Ok t -> forall sp,
  (forall k, In k (dkeys sp) -> smem k tensor_params = false) ->
  tensor_init np_has (fields t ++ sp) = Ok (mkTensor (t_name t) (t_shape t) (t_type t) (t_dtype t)
    (t_exists t) (t_vector_info t) (t_trafo t) (t_reduce_axes t) (t_log t) (t_log_axis t) (t_batch_axis t) sp).
Proof.
  intros H sp Hsp. apply init_inv_tensor in H. destruct H as (H1 & H2 & H3 & H4 & H5 & H6 & _).
  unfold tensor_init.
  change (dget "name" (fields t ++ sp)) with (Some (VStr (t_name t))).
  change (dget "shape" (fields t ++ sp)) with (Some (t_shape t)).
  change (dget "tensor_type" (fields t ++ sp)) with (Some (VStr (t_type t))).
  change (dget "dtype" (fields t ++ sp)) with (Some (VStr (t_dtype t))).
  change (dget "exists" (fields t ++ sp)) with (Some (t_exists t)).
  change (dget "vector_info" (fields t ++ sp)) with (Some (t_vector_info t)).
  change (dget "trafo" (fields t ++ sp)) with (Some (t_trafo t)).
  change (dget "trafo_reduce_axes" (fields t ++ sp)) with (Some (t_reduce_axes t)).
  change (dget "trafo_log" (fields t ++ sp)) with (Some (t_log t)).
  change (dget "trafo_log_axis" (fields t ++ sp)) with (Some (t_log_axis t)).
  change (dget "trafo_batch_axis" (fields t ++ sp)) with (Some (t_batch_axis t)).
  cbv beta iota zeta.
  destruct (numeric (t_log_axis t)) as [ax|]; [|contradiction]. rewrite H3, H4. cbn [negb].
  assert (Hsh : forall (r : result tensor), match t_shape t with VNone => Err ValueError | _ => r end = r)
    by (intros r; destruct (t_shape t); congruence).
  rewrite Hsh.
  assert (Hvi : match t_vector_info t with
     | VNone => None
     | VDict d => match dget "type" d with
                  | None => Some KeyError
                  | Some (VStr s) => if smem s ["index"; "value"] then None else Some ValueError
                  | Some _ => Some ValueError
                  end
     | _ => Some TypeError end = None).
  { destruct (t_vector_info t); try contradiction; [reflexivity|]. destruct H5 as (s & Hs & Hm). rewrite Hs, Hm. reflexivity. }
  rewrite Hvi.
  assert (Hfil : filter (fun kv => negb (smem (fst kv) tensor_params)) (fields t ++ sp) = sp).
  { rewrite filter_app. replace (filter _ (fields t)) with (@nil (string * value)) by reflexivity. cbn [app].
    clear - Hsp. induction sp as [|[k v] sp IH]; [reflexivity|]. cbn [app filter fst].
    rewrite (Hsp k) by (left; reflexivity). cbn [negb]. f_equal. apply IH. intros j Hj. apply Hsp. right; exact Hj. }
  rewrite Hfil.
  destruct (t_log t); try reflexivity. exfalso. eapply H6; reflexivity.
Qed.

Lemma specs_params kw t : tensor_init np_has kw = Ok t ->
  forall k, In k (dkeys (t_specs t)) -> smem k tensor_params = false.
Proof.
  intros H k Hk. apply init_inv_tensor in H. destruct H as (_ & _ & _ & _ & _ & _ & H). rewrite H in Hk.
  unfold dkeys in Hk. apply in_map_iff in Hk. destruct Hk as ([j v] & Heq & Hin). apply filter_In in Hin.
  destruct Hin as [_ Hin]. simpl in *. subst. apply negb_true_iff. exact Hin.
Qed.

Lemma specs_wf kw t : dwf kw -> tensor_init np_has kw = Ok t -> dwf (t_specs t).
Proof.
  intros Hwf H. apply init_inv_tensor in H. destruct H as (_ & _ & _ & _ & _ & _ & H). rewrite H. clear - Hwf.
  unfold dwf, dkeys in *. induction kw as [|[k v] l IH]; simpl; [constructor|].
  inversion Hwf; subst. destruct (negb _); simpl; [constructor; [|auto]|auto].
  intros Hin. match goal with H : ~ In _ _ |- _ => apply H end.
  apply in_map_iff in Hin. destruct Hin as ([k' v'] & Heq & Hin). apply filter_In in Hin. destruct Hin as [Hin _].
  simpl in Heq. subst. apply (in_map fst) in Hin. exact Hin.
Qed.

Lemma roundtrip_one kw t : dwf kw -> tensor_init np_has kw = Ok t ->
  deserialize_one np_has (to_dict t) = Ok (strip t).
Proof.
  intros Hwf H. rewrite deserialize_one_fields; [|eapply specs_wf; eauto|eapply specs_params; eauto].
  rewrite (init_fields _ _ H); [reflexivity|].
  intros k Hk. unfold dkeys in Hk. apply in_map_iff in Hk. destruct Hk as ([j v] & Heq & Hin). apply filter_In in Hin.
  destruct Hin as [Hin _]. simpl in Heq; subst. eapply specs_params; [exact H|]. apply (in_map fst) in Hin. exact Hin.
Qed.

End RoundTrip.
