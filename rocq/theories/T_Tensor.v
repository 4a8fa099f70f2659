(** Property theorems C13, C14: tensor lists. *)
From Verif Require Import Py PyFacts M_Tensor S_Tensor L_Tensor.
From Coq Require Import Sorting.Sorted.

(** ** C13 *)

Theorem C13_fails_iff_duplicate : forall ts,
  (tensor_list_init ts = Err ValueError <-> ~ NoDup (map t_name ts)) /\
  (NoDup (map t_name ts) <-> exists tl, tensor_list_init ts = Ok tl).
Proof.
  intros ts. unfold tensor_list_init. rewrite <- !has_dup_false. destruct (has_dup _); split; split; intros H;
    try congruence; eauto; destruct H; congruence.
Qed.
Print Assumptions C13_fails_iff_duplicate.

(** The list holds exactly the given tensors in strictly increasing order of
    names. *)
Theorem C13_sorted_permutation : forall ts tl, tensor_list_init ts = Ok tl ->
  SortedByName (tl_list tl) /\ Permutation ts (tl_list tl) /\ tl_names tl = map t_name (tl_list tl).
Proof.
  intros ts tl H. apply init_inv in H. destruct H as (H1 & H2 & H3 & _). rewrite H2 in *.
  split; [apply sort_sorted; exact H1|]. split; [apply sort_perm|exact H3].
Qed.
Print Assumptions C13_sorted_permutation.

(** The order in which tensors are given does not matter. *)
Theorem C13_order_independent : forall ts us,
  Permutation ts us -> tensor_list_init ts = tensor_list_init us.
Proof.
  intros ts us HP. unfold tensor_list_init.
  assert (E : has_dup (map t_name ts) = has_dup (map t_name us)).
  { destruct (has_dup (map t_name ts)) eqn:E1, (has_dup (map t_name us)) eqn:E2; try reflexivity; exfalso.
    - apply has_dup_false in E2. assert (N : NoDup (map t_name ts))
        by (eapply Permutation_NoDup; [apply Permutation_map; apply Permutation_sym; exact HP|exact E2]).
      apply has_dup_false in N. congruence.
    - apply has_dup_false in E1. assert (N : NoDup (map t_name us))
        by (eapply Permutation_NoDup; [apply Permutation_map; exact HP|exact E1]).
      apply has_dup_false in N. congruence. }
  rewrite <- E. destruct (has_dup (map t_name ts)) eqn:Ed; [reflexivity|].
  assert (Hs : sort_by_name ts = sort_by_name us).
  { apply sorted_unique.
    - apply sort_sorted. apply has_dup_false. exact Ed.
    - apply sort_sorted. apply has_dup_false. congruence.
    - etransitivity; [apply Permutation_sym, sort_perm|]. etransitivity; [exact HP|apply sort_perm]. }
  rewrite Hs. reflexivity.
Qed.
Print Assumptions C13_order_independent.

(** Name-to-index and index-to-name are mutually inverse, and the index is the
    position in the list. *)
Theorem C13_lookups_inverse : forall ts tl, tensor_list_init ts = Ok tl ->
  (forall n i, get_index tl n = Ok i <-> get_name tl i = Ok n) /\
  (forall n i, get_index tl n = Ok i <-> exists t, nth_error (tl_list tl) i = Some t /\ t_name t = n) /\
  (forall n t, get_item tl n = Ok t <-> In t ts /\ t_name t = n).
Proof.
  intros ts tl H. pose proof (C13_sorted_permutation ts tl H) as (Hs & HP & Hn).
  apply init_inv in H. destruct H as (_ & _ & _ & H4 & H5).
  assert (Hnd : NoDup (tl_names tl)) by (rewrite Hn; apply sorted_nodup; exact Hs).
  assert (Hidx : forall n i, get_index tl n = Ok i <-> nth_error (tl_names tl) i = Some n).
  { intros n i. unfold get_index. rewrite H4. split.
    - destruct (dget n _) as [j|] eqn:E; [|discriminate]. intros Hj; inversion Hj; subst.
      apply combine_seq_dget in E; [|exact Hnd]. rewrite Nat.sub_0_r in E. apply E.
    - intros E. assert (E' : dget n (combine (tl_names tl) (seq 0 (length (tl_names tl)))) = Some i).
      { apply combine_seq_dget; [exact Hnd|]. rewrite Nat.sub_0_r. split; [lia|exact E]. }
      rewrite E'. reflexivity. }
  assert (Hpos : forall n i, get_index tl n = Ok i <-> exists t, nth_error (tl_list tl) i = Some t /\ t_name t = n).
  { intros n i. rewrite Hidx, Hn, nth_error_map. destruct (nth_error (tl_list tl) i) as [t|]; simpl; split; intros E.
    - exists t. inversion E; auto.
    - destruct E as (u & Eu & En). inversion Eu; subst. reflexivity.
    - discriminate.
    - destruct E as (u & Eu & _). discriminate. }
  split; [|split; [exact Hpos|]].
  - intros n i. rewrite Hidx. unfold get_name. rewrite H5, combine_seq_nlookup. simpl. rewrite Nat.sub_0_r.
    destruct (nth_error (tl_names tl) i); split; intros E; inversion E; reflexivity.
  - intros n t. unfold get_item. split.
    + destruct (get_index tl n) as [i|] eqn:E; [|discriminate]. apply Hpos in E. destruct E as (u & Eu & En).
      rewrite Eu. intros Ht; inversion Ht; subst. split; [|reflexivity].
      apply nth_error_In in Eu. eapply Permutation_in; [apply Permutation_sym; exact HP|exact Eu].
    + intros [Hin Hname]. apply (Permutation_in _ HP) in Hin. apply In_nth_error in Hin. destruct Hin as [i Hi].
      assert (E : get_index tl n = Ok i) by (apply Hpos; eauto). rewrite E, Hi. reflexivity.
Qed.
Print Assumptions C13_lookups_inverse.

(** The copy constructor returns an equal list. *)
Theorem C13_copy_identity : forall ts tl, tensor_list_init ts = Ok tl -> tensor_list_copy tl = Ok tl.
Proof.
  intros ts tl H. unfold tensor_list_copy. rewrite <- H. symmetry. apply C13_order_independent.
  apply C13_sorted_permutation in H. apply H.
Qed.
Print Assumptions C13_copy_identity.

Definition ex_tensor (n : string) (specs : dict value) : tensor :=
  mkTensor n (VTuple [VInt (-1); VInt 2]) "data" "float32" (VBool true) VNone (VBool false)
    (VTuple []) VNone (VInt (-1)) (VInt 0) specs.

Example C13_example :
  (exists tl, tensor_list_init [ex_tensor "x_pulses" []; ex_tensor "x_dom_charge" []] = Ok tl /\
     tl_names tl = ["x_dom_charge"; "x_pulses"] /\ get_index tl "x_pulses" = Ok 1) /\
  tensor_list_init [ex_tensor "a" []; ex_tensor "b" []; ex_tensor "a" []] = Err ValueError.
Proof. split; [eexists; split; [reflexivity|]; split; reflexivity|reflexivity]. Qed.

(** ** C14 *)

(** Tensors as the constructor makes them. *)
Definition Constructed (np_has : string -> bool) (t : tensor) : Prop :=
  exists kw, dwf kw /\ tensor_init np_has kw = Ok t.

Lemma deserialize_all_strip np_has ts : Forall (Constructed np_has) ts ->
  deserialize_all np_has (map to_dict ts) = Ok (map strip ts).
Proof.
  induction 1 as [|t ts (kw & Hwf & Hk) H IH]; simpl; [reflexivity|].
  rewrite (roundtrip_one _ _ _ Hwf Hk), IH. reflexivity.
Qed.

(** The round trip returns the list in which the extra specifications called
    "type" and "specs" are removed. *)
Theorem C14_round_trip : forall np_has ts tl,
  Forall (Constructed np_has) ts -> tensor_list_init ts = Ok tl ->
  exists tl', tensor_list_from_dicts np_has (serialize tl) = Ok tl' /\
    tl_list tl' = map strip (tl_list tl) /\ tl_names tl' = tl_names tl.
Proof.
  intros np_has ts tl Hall H. destruct (C13_sorted_permutation ts tl H) as (Hs & HP & Hn).
  assert (Hall' : Forall (Constructed np_has) (tl_list tl)) by (eapply Permutation_Forall; eauto).
  unfold tensor_list_from_dicts, deserialize, serialize. rewrite deserialize_all_strip by exact Hall'.
  assert (Hnames : map t_name (map strip (tl_list tl)) = map t_name (tl_list tl))
    by (rewrite map_map; reflexivity).
  assert (Hs' : SortedByName (map strip (tl_list tl))).
  { clear - Hs. induction Hs as [|t l Hs IH Hf]; simpl; constructor; [exact IH|].
    rewrite Forall_forall in *. intros x Hx. apply in_map_iff in Hx. destruct Hx as (y & <- & Hy). exact (Hf y Hy). }
  destruct (proj1 (proj2 (C13_fails_iff_duplicate (map strip (tl_list tl))))) as [tl' Htl'].
  { rewrite Hnames. apply sorted_nodup. exact Hs. }
  exists tl'. rewrite Htl'. split; [eapply C13_copy_identity; exact Htl'|].
  apply init_inv in Htl'. destruct Htl' as (_ & E1 & E2 & _). rewrite sort_of_sorted in E1 by exact Hs'.
  split; [exact E1|]. rewrite E2, E1, Hnames. symmetry. exact Hn.
Qed.
Print Assumptions C14_round_trip.

(** Without such specifications it is the identity. *)
Theorem C14_round_trip_identity : forall np_has ts tl,
  Forall (Constructed np_has) ts -> tensor_list_init ts = Ok tl ->
  (forall t, In t ts -> dget "type" (t_specs t) = None /\ dget "specs" (t_specs t) = None) ->
  tensor_list_from_dicts np_has (serialize tl) = Ok tl.
Proof.
  intros np_has ts tl Hall H Hno. destruct (C13_sorted_permutation ts tl H) as (Hs & HP & Hn).
  assert (Hall' : Forall (Constructed np_has) (tl_list tl)) by (eapply Permutation_Forall; eauto).
  unfold tensor_list_from_dicts, deserialize, serialize. rewrite deserialize_all_strip by exact Hall'.
  assert (Hid : map strip (tl_list tl) = tl_list tl).
  { rewrite <- (map_id (tl_list tl)) at 2. apply map_ext_in. intros t Ht.
    apply (Permutation_in _ (Permutation_sym HP)) in Ht. destruct (Hno t Ht) as [N1 N2].
    unfold strip. destruct t as [na sh ty dt ex vi tr ax lg la ba sp]. simpl in *. f_equal.
    clear - N1 N2. induction sp as [|[k v] sp IH]; simpl; [reflexivity|].
    cbn [dget] in N1, N2. destruct (String.eqb "type" k) eqn:E1; [discriminate|].
    destruct (String.eqb "specs" k) eqn:E2; [discriminate|].
    rewrite (String.eqb_sym k "type"), E1, (String.eqb_sym k "specs"), E2. simpl. f_equal. auto. }
  rewrite Hid. fold (tensor_list_copy tl). rewrite (C13_copy_identity _ _ H). eapply C13_copy_identity; exact H.
Qed.
Print Assumptions C14_round_trip_identity.

(** With one, the tensor returned differs from the original. *)
Theorem C14_clash_changes : forall np_has ts tl t v,
  Forall (Constructed np_has) ts -> tensor_list_init ts = Ok tl -> In t ts ->
  dget "type" (t_specs t) = Some v \/ dget "specs" (t_specs t) = Some v ->
  exists tl', tensor_list_from_dicts np_has (serialize tl) = Ok tl' /\
    exists t', get_item tl' (t_name t) = Ok t' /\ t' <> t /\
      dget "type" (t_specs t') = None /\ dget "specs" (t_specs t') = None.
Proof.
  intros np_has ts tl t v Hall H Hin Hv. destruct (C14_round_trip _ _ _ Hall H) as (tl' & E1 & E2 & E3).
  exists tl'. split; [exact E1|].
  destruct (C13_sorted_permutation ts tl H) as (Hs & HP & Hn).
  assert (Hex : exists us, tensor_list_init us = Ok tl').
  { unfold tensor_list_from_dicts in E1. destruct (deserialize _ _) as [tl2|]; [|discriminate]. eauto. }
  destruct Hex as [us Hus]. destruct (C13_lookups_inverse _ _ Hus) as (_ & _ & Hit).
  destruct (C13_sorted_permutation us tl' Hus) as (_ & HP' & _).
  assert (Hdrop : forall sp k, k = "type" \/ k = "specs" ->
    dget k (filter (fun kv : string * value => negb (String.eqb (fst kv) "type" || String.eqb (fst kv) "specs")) sp) = None).
  { clear. intros sp k Hk. induction sp as [|[j w] sp IH]; simpl; [reflexivity|].
    destruct (String.eqb j "type") eqn:E1; [exact IH|]. destruct (String.eqb j "specs") eqn:E2; [exact IH|]. simpl.
    apply String.eqb_neq in E1, E2. destruct (String.eqb k j) eqn:E; [|exact IH].
    apply String.eqb_eq in E. destruct Hk; congruence. }
  assert (Hd1 : dget "type" (t_specs (strip t)) = None) by (apply Hdrop; auto).
  assert (Hd2 : dget "specs" (t_specs (strip t)) = None) by (apply Hdrop; auto).
  exists (strip t). split; [|split; [intros Heq; rewrite Heq in *; destruct Hv; congruence|auto]].
  apply Hit. split; [|reflexivity]. eapply Permutation_in; [apply Permutation_sym; exact HP'|].
  rewrite E2. apply in_map. eapply Permutation_in; [exact HP|exact Hin].
Qed.
Print Assumptions C14_clash_changes.

(** What a tensor built from the four required arguments carries. *)
Theorem C14_defaults : forall np_has name shape ty dt t,
  tensor_init np_has [("name", VStr name); ("shape", shape); ("tensor_type", VStr ty);
                      ("dtype", VStr dt)] = Ok t ->
  t_name t = name /\ t_shape t = shape /\ t_type t = ty /\ t_dtype t = dt /\
  t_exists t = VBool true /\ t_vector_info t = VNone /\ t_trafo t = VBool false /\
  t_reduce_axes t = VTuple [] /\ t_log t = VNone /\ t_log_axis t = VInt (-1) /\
  t_batch_axis t = VInt 0 /\ t_specs t = [].
Proof.
  intros np_has name shape ty dt t H. unfold tensor_init in H. cbn [dget String.eqb Ascii.eqb Bool.eqb] in H.
  destruct shape; try discriminate; cbn in H; destruct (negb _); try discriminate;
    destruct (negb _); try discriminate; inversion H; subst; cbn; intuition.
Qed.
Print Assumptions C14_defaults.

(** Which constructor calls with the four required arguments succeed. *)
Theorem C14_required_arguments : forall np_has name shape ty dt,
  (exists t, tensor_init np_has [("name", VStr name); ("shape", shape);
                                 ("tensor_type", VStr ty); ("dtype", VStr dt)] = Ok t) <->
  shape <> VNone /\ np_has dt = true /\
  (ty = "data" \/ ty = "label" \/ ty = "weight" \/ ty = "misc" \/ ty = "prediction").
Proof.
  intros np_has name shape ty dt.
  assert (Hty : smem ty ["data"; "label"; "weight"; "misc"; "prediction"] = true <->
    (ty = "data" \/ ty = "label" \/ ty = "weight" \/ ty = "misc" \/ ty = "prediction")).
  { rewrite smem_In. cbn. intuition congruence. }
  rewrite <- Hty. unfold tensor_init. cbn [dget String.eqb Ascii.eqb Bool.eqb].
  split.
  - intros [t H]. destruct shape; try discriminate; cbn [numeric] in H; 
      destruct (smem ty _); try discriminate; cbn [negb] in H; destruct (np_has dt); try discriminate;
      repeat split; discriminate.
  - intros (Hs & Hn & Ht). rewrite Ht, Hn. destruct shape; try congruence; cbn; eexists; reflexivity.
Qed.
Print Assumptions C14_required_arguments.

Lemma nth_error_rev {A} (l : list A) i : i < length l ->
  nth_error (rev l) i = nth_error l (length l - 1 - i).
Proof.
  induction l as [|x l IH]; intros H; cbn in H; [lia|]. cbn [rev length].
  destruct (Nat.eq_dec i (length l)) as [->|N].
  - rewrite nth_error_app2 by (rewrite rev_length; lia). rewrite rev_length, Nat.sub_diag.
    replace (S (length l) - 1 - length l) with 0 by lia. reflexivity.
  - rewrite nth_error_app1 by (rewrite rev_length; lia). rewrite IH by lia.
    replace (S (length l) - 1 - i) with (S (length l - 1 - i)) by lia. reflexivity.
Qed.

(** A single logarithm flag is expanded to one flag per entry of the chosen
    axis, counted from the end when negative; flags given as a list are kept. *)
Theorem C14_log_flag_expanded : forall np_has kw t b dims ax n,
  dget "trafo_log" kw = Some (VBool b) -> dget "shape" kw = Some (VTuple dims) ->
  dget "trafo_log_axis" kw = Some (VInt ax) ->
  (0 <= n)%Z ->
  (if (ax <? 0)%Z then nth_error (rev dims) (Z.to_nat (- ax - 1)) else nth_error dims (Z.to_nat ax))
    = Some (VInt n) ->
  tensor_init np_has kw = Ok t ->
  exists flags, t_log t = VList flags /\ Z.of_nat (length flags) = n /\
    forall f, In f flags -> f = VBool b.
Proof.
  intros np_has kw t b dims ax n Hl Hs Ha Hn Hd H. unfold tensor_init in H. rewrite Hl, Hs, Ha in H.
  assert (E : py_nth dims ax = Some (VInt n)).
  { unfold py_nth. destruct (ax <? 0)%Z eqn:S; [|exact Hd]. apply Z.ltb_lt in S.
    assert (L : Z.to_nat (- ax - 1) < length dims).
    { rewrite <- rev_length. apply nth_error_Some. congruence. }
    destruct (Z.of_nat (length dims) + ax <? 0)%Z eqn:S2; [apply Z.ltb_lt in S2; lia|].
    rewrite <- Hd. symmetry. rewrite nth_error_rev by exact L. f_equal. lia. }
  destruct (dget "name" kw) as [[]|]; try discriminate.
  destruct (dget "tensor_type" kw) as [[]|]; try discriminate.
  destruct (dget "dtype" kw) as [dt|]; try discriminate.
  cbn [numeric] in H. destruct (negb (smem _ _)); try discriminate. destruct dt; try discriminate.
  destruct (negb (np_has _)); try discriminate.
  cbn [as_seq] in H. rewrite E in H. cbn [numeric] in H.
  repeat match type of H with
  | match match ?v with _ => _ end with _ => _ end = _ => destruct v; try discriminate
  end; inversion H; subst; cbn [t_log];
    (eexists; split; [reflexivity|]; rewrite repeat_length; split; [lia|];
     intros f Hf; eapply repeat_spec; exact Hf).
Qed.
Print Assumptions C14_log_flag_expanded.

Example C14_log_flag_example : exists t,
  tensor_init (fun _ => true)
    [("name", VStr "x"); ("shape", VTuple [VNone; VInt 3]); ("tensor_type", VStr "data");
     ("dtype", VStr "float32"); ("trafo_log", VBool true); ("trafo_log_axis", VInt (-1))] = Ok t /\
  t_log t = VList [VBool true; VBool true; VBool true].
Proof. eexists. split; reflexivity. Qed.

Example C14_example : Constructed (fun _ => true) (ex_tensor "a" [("unit", VStr "pe")]) /\
  Constructed (fun _ => true) (ex_tensor "b" [("type", VStr "x")]) /\
  tensor_list_from_dicts (fun _ => true) [to_dict (ex_tensor "b" [("type", VStr "x")])] =
    tensor_list_init [ex_tensor "b" []].
Proof.
  assert (H : forall n sp, dwf (("name", VStr n) :: ("shape", VTuple [VInt (-1); VInt 2]) ::
      ("tensor_type", VStr "data") :: ("dtype", VStr "float32") :: sp) ->
      filter (fun kv => negb (smem (fst kv) tensor_params)) sp = sp ->
      (forall k, In k tensor_params -> dget k sp = None) ->
      Constructed (fun _ => true) (ex_tensor n sp)).
  { intros n sp Hwf Hf Hk. eexists. split; [exact Hwf|]. unfold tensor_init, ex_tensor. simpl dget.
    rewrite !Hk by (simpl; auto 20). cbn. f_equal. f_equal. exact Hf. }
  split; [|split; [|reflexivity]].
  - apply H; [repeat constructor; simpl; intuition discriminate|reflexivity|].
    intros k Hin. simpl in Hin. repeat (destruct Hin as [<-|Hin]; [reflexivity|]). destruct Hin.
  - apply H; [repeat constructor; simpl; intuition discriminate|reflexivity|].
    intros k Hin. simpl in Hin. repeat (destruct Hin as [<-|Hin]; [reflexivity|]). destruct Hin.
Qed.
