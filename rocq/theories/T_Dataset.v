(** C190-C191: what batches are made of, and which of them a dataset delivers. *)
From Coq Require Import Lia.
From Verif Require Import Py PyFacts M_Tensor M_Batch M_Handler M_Dataset S_Batch T_Batch L_Handler S_Dataset L_Dataset.

(** C190: whatever the files contain and in whatever order they are read, each array
    of a batch either consists of rows of this tensor in the files, or it consists
    of placeholders and some file lacks the tensor; a batch has one array for each
    tensor. *)
Theorem C190_rows V zero (P : nat -> V -> Prop) bs kinds groups out : AllRows P groups -> run_batching V zero bs kinds groups = Ok out ->
  forall b, In b out -> length b = length kinds /\
    forall i col, nth_error b i = Some col -> (forall r, In r col -> P i (snd r)) \/ (Lacking groups i /\ forall r, In r col -> r = zero).
Proof.
  intros HR H b Hb. pose proof (run_batching_good V zero P bs kinds groups out HR H) as G. pose proof (run_batching_length V zero bs kinds groups out H) as L.
  rewrite Forall_forall in G, L. split; [apply L; exact Hb|]. intros i col Hi. destruct (G b Hb i col Hi) as [A|[A B]]; [left|right; split; [exact A|]].
  - unfold GoodRows in A. rewrite Forall_forall in A. exact A.
  - rewrite Forall_forall in B. exact B.
Qed.

Section Dataset.
Variable C : Type.
Variable zero : C.
Variable tf_has : string -> bool.
Notation entry := (entry_row C).
Notation dataset := (tf_dataset C tf_has zero).

(** C191: if all files have the tensors that exist with their declared shapes and
    lack the others, every batch is delivered. *)
Theorem C191_accepted tensors kinds bs groups out :
  kinds_of tensors (tl_list tensors) = Ok kinds -> run_batching entry (zero_row C zero) bs kinds groups = Ok out ->
  (forall i t, nth_error (tl_list tensors) i = Some t -> tf_has (t_dtype t) = true /\
     ((exists_true t /\ exists dims, declared t dims /\
         forall data o, FileIn groups data -> nth_error data i = Some o -> exists d, o = Some d /\ forall r, In r (all_rows d) -> e_dims C (snd r) = dims) \/
      (exists_false t /\ forall data o, FileIn groups data -> nth_error data i = Some o -> o = None))) ->
  dataset tensors bs groups = Ok (out, None).
Proof.
  intros HK HO HT.
  assert (HS : forall ts, (forall i t, nth_error ts i = Some t -> tf_has (t_dtype t) = true /\
    ((exists_true t /\ exists dims, declared t dims) \/ exists_false t)) -> exists shapes, output_shapes tf_has ts = Ok shapes).
  { induction ts as [|t ts IH]; intros H; [exists []; reflexivity|]. destruct (H 0 t eq_refl) as [Hd Ht]. destruct IH as [ss Hss].
    { intros i t' Hi. apply (H (S i)). exact Hi. }
    cbn [output_shapes]. rewrite Hd. cbn [negb]. destruct Ht as [[E (dims & D)]|E]; unfold exists_true, exists_false in E; rewrite E; cbn [truthy].
    - rewrite (tensor_shape_declared _ _ D). cbn [bind]. rewrite Hss. cbn [bind]. eauto.
    - cbn [bind]. rewrite Hss. cbn [bind]. eauto. }
  destruct (HS (tl_list tensors)) as [shapes Hsh].
  { intros i t Hi. destruct (HT i t Hi) as [A [(B & dims & D & _)|[B _]]]; split; eauto. }
  unfold tf_dataset. rewrite Hsh. cbn [bind]. rewrite HK. cbn [bind]. rewrite HO. cbn [bind]. f_equal. apply iterate_all.
  destruct (output_shapes_nth _ _ _ Hsh) as [Ls Ns].
  assert (LK : length kinds = length (tl_list tensors)) by (apply (kinds_of_length tensors); exact HK).
  set (P := fun i (v : entry) => match nth_error (tl_list tensors) i with
    | Some t => exists_true t /\ exists dims, declared t dims /\ e_dims C v = dims | None => True end).
  assert (HP : AllRows P groups).
  { intros data i d r Hf Hd Hr. unfold P. destruct (nth_error (tl_list tensors) i) as [t|] eqn:Et.
    - destruct (HT i t Et) as [_ [(B & dims & D & A)|[B A]]].
      + split; [exact B|]. exists dims. split; [exact D|]. destruct (A data (Some d) Hf Hd) as (d' & [= <-] & A'). apply A'. exact Hr.
      + specialize (A data (Some d) Hf Hd). discriminate.
    - exact I. }
  apply Forall_forall. intros b Hb. destruct (C190_rows _ _ P _ _ _ _ HP HO b Hb) as [Lb Cb].
  apply element_fits_nth; [congruence|]. intros i s rows Hs Hr.
  assert (Hi : i < length (tl_list tensors)) by (rewrite <- Ls; apply nth_error_Some; congruence).
  destruct (nth_error (tl_list tensors) i) as [t|] eqn:Et; [|apply nth_error_None in Et; lia].
  destruct (Ns i t Et) as (s' & Hs' & Hsp). assert (s' = s) by congruence. subst s'. unfold array_fits. apply andb_true_intro.
  destruct (HT i t Et) as [_ [(B & dims & D & A)|[B A]]]; unfold exists_true, exists_false in B; rewrite B in Hsp; cbn [truthy] in Hsp.
  - rewrite (tensor_shape_declared _ _ D) in Hsp. injection Hsp as <-.
    assert (R : forall r, In r rows -> e_dims C (snd r) = dims).
    { intros r Hin. destruct (Cb i rows Hr) as [G|[(data & Hf & Hd) _]].
      - specialize (G r Hin). unfold P in G. rewrite Et in G. destruct G as (_ & dims' & D' & G).
        assert (dims' = dims); [|congruence]. destruct D as [D _], D' as [D' _]. clear -D D'.
        assert (M : map VInt dims' = map VInt dims) by (destruct D as [D|D], D' as [D'|D']; congruence). clear D D'. revert dims M.
        induction dims' as [|x l IH]; intros [|y l'] M; try discriminate; [reflexivity|]. injection M as -> M. f_equal. apply IH. exact M.
      - destruct (A data None Hf Hd) as (d & E & _). discriminate. }
    split.
    + destruct rows as [|r rows']; [reflexivity|]. cbn [regular]. apply forallb_forall. intros r' Hr'. rewrite (R r), (R r') by (cbn; auto). apply dims_refl.
    + cbn [axis_fits andb]. apply forallb_forall. intros r Hin. apply axes_fit_iff. apply R. exact Hin.
  - injection Hsp as <-. split; [|reflexivity].
    assert (R : forall r, In r rows -> r = zero_row C zero).
    { destruct (Cb i rows Hr) as [G|[_ G]]; [|exact G]. intros r Hin. specialize (G r Hin). unfold P in G. rewrite Et in G. destruct G as [G _].
      unfold exists_true in G. congruence. }
    destruct rows as [|r rows']; [reflexivity|]. cbn [regular]. apply forallb_forall. intros r' Hr'. rewrite (R r), (R r') by (cbn; auto). apply dims_refl.
Qed.

(** C191: whatever the files contain, a batch that is delivered has, for every
    tensor that exists, rows of the declared shape; the first other batch raises
    TypeError. *)
Theorem C191_delivered tensors bs groups out e : dataset tensors bs groups = Ok (out, e) ->
  (e = None \/ e = Some TypeError) /\
  forall b, In b out -> length b = length (tl_list tensors) /\
    forall i t dims col, nth_error (tl_list tensors) i = Some t -> exists_true t -> declared t dims -> nth_error b i = Some col ->
      forall r, In r col -> e_dims C (snd r) = dims.
Proof.
  intros H. unfold tf_dataset in H. apply bind_ok in H. destruct H as (shapes & Hsh & H). apply bind_ok in H. destruct H as (kinds & _ & H).
  apply bind_ok in H. destruct H as (all & _ & H). injection H as H. apply iterate_prefix in H. destruct H as [HF HE]. split.
  - destruct e as [e|]; [|left; reflexivity]. destruct HE as [-> _]. right. reflexivity.
  - intros b Hb. rewrite Forall_forall in HF. specialize (HF b Hb). destruct (element_fits_inv _ _ HF) as [L N]. destruct (output_shapes_nth _ _ _ Hsh) as [Ls Ns].
    split; [congruence|]. intros i t dims col Ht Et D Hc r Hr. destruct (Ns i t Ht) as (s & Hs & Hsp). unfold exists_true in Et. rewrite Et in Hsp. cbn [truthy] in Hsp.
    rewrite (tensor_shape_declared _ _ D) in Hsp. injection Hsp as <-. specialize (N i _ col Hs Hc). unfold array_fits in N.
    apply andb_prop in N. destruct N as [_ N]. cbn [axis_fits andb] in N. rewrite forallb_forall in N. apply axes_fit_iff. apply N. exact Hr.
Qed.

(** C191: if the first axis of an existing tensor is declared with a fixed length,
    delivered batches have exactly this number of rows, so that the last, smaller
    batch is not delivered. *)
Theorem C191_fixed_rows tensors bs groups out e i t n dims : dataset tensors bs groups = Ok (out, e) ->
  nth_error (tl_list tensors) i = Some t -> exists_true t -> t_shape t = VList (VInt n :: map VInt dims) -> Forall (fun z => (0 <= z)%Z) (n :: dims) ->
  forall b col, In b out -> nth_error b i = Some col -> Z.of_nat (length col) = n /\ forall r, In r col -> e_dims C (snd r) = dims.
Proof.
  intros H Ht Et Es Hn b col Hb Hc. unfold tf_dataset in H. apply bind_ok in H. destruct H as (shapes & Hsh & H). apply bind_ok in H. destruct H as (kinds & _ & H).
  apply bind_ok in H. destruct H as (all & _ & H). injection H as H. apply iterate_prefix in H. destruct H as [HF _].
  rewrite Forall_forall in HF. specialize (HF b Hb). destruct (element_fits_inv _ _ HF) as [_ N]. destruct (output_shapes_nth _ _ _ Hsh) as [_ Ns].
  destruct (Ns i t Ht) as (s & Hs & Hsp). unfold exists_true in Et. rewrite Et, Es in Hsp. cbn [truthy tensor_shape] in Hsp.
  change (VInt n :: map VInt dims) with (map VInt (n :: dims)) in Hsp. rewrite shape_axes_ints in Hsp by exact Hn. cbn [bind map] in Hsp. injection Hsp as <-.
  specialize (N i _ col Hs Hc). unfold array_fits in N. apply andb_prop in N. destruct N as [_ N]. apply andb_prop in N. destruct N as [A N].
  cbn [axis_fits] in A. apply Z.eqb_eq in A. split; [symmetry; exact A|]. rewrite forallb_forall in N. intros r Hr. apply axes_fit_iff. apply N. exact Hr.
Qed.

(** C191: if a tensor that exists and has further axes is missing in one file of
    every group, nothing is delivered. *)
Theorem C191_missing tensors kinds shapes bs groups (present : nat -> bool) i t dims :
  kinds_of tensors (tl_list tensors) = Ok kinds -> output_shapes tf_has (tl_list tensors) = Ok shapes -> KindsOk kinds -> 0 < bs ->
  Forall (fun g => Forall (fun f => DataOpt entry kinds (fst f) (snd f)) (fst g) /\ IndicesOk entry g /\
    forall i, i < length kinds -> (present i = true <-> Available entry i (fst g))) groups ->
  stream entry kinds groups <> [] ->
  nth_error (tl_list tensors) i = Some t -> exists_true t -> declared t dims -> dims <> [] -> i < length kinds -> present i = false ->
  dataset tensors bs groups = Ok ([], Some TypeError).
Proof.
  intros HK HS KO Hbs HG HN Ht Et D Hd Hi Hp. unfold tf_dataset. rewrite HS. cbn [bind]. rewrite HK. cbn [bind].
  destruct (C62_missing_in_one_file entry (zero_row C zero) kinds bs groups present KO Hbs HG) as (chunks & (C1 & C2 & _) & E). rewrite E. cbn [bind]. f_equal.
  destruct chunks as [|c chunks]; [destruct HN; symmetry; exact C1|]. cbn [map iterate]. inversion C2 as [|? ? Hc _]; subst.
  destruct (element_fits C shapes (assemble_with entry (zero_row C zero) kinds present c)) eqn:F; [|reflexivity]. exfalso.
  destruct (element_fits_inv _ _ F) as [_ N]. destruct (output_shapes_nth _ _ _ HS) as [_ Ns]. destruct (Ns i t Ht) as (s & Hs & Hsp).
  unfold exists_true in Et. rewrite Et in Hsp. cbn [truthy] in Hsp. rewrite (tensor_shape_declared _ _ D) in Hsp. injection Hsp as <-.
  assert (Hcol : nth_error (assemble_with entry (zero_row C zero) kinds present c) i = Some (map (fun _ => zero_row C zero) c)).
  { unfold assemble_with. rewrite (map_nth_error _ i (seq 0 (length kinds)) (d := i)); [rewrite Hp; reflexivity|].
    rewrite (nth_error_nth' _ 0) by (rewrite seq_length; exact Hi). rewrite seq_nth by exact Hi. reflexivity. }
  specialize (N i _ _ Hs Hcol). unfold array_fits in N. apply andb_prop in N. destruct N as [_ N]. cbn [axis_fits andb] in N. rewrite forallb_forall in N.
  destruct c as [|ev c]; [cbn in Hc; lia|]. specialize (N (zero_row C zero) (or_introl eq_refl)). apply axes_fit_iff in N. cbn in N. congruence.
Qed.

(** C191: no dataset is made if a tensor has a type that TensorFlow does not have or
    exists with a negative axis. *)
Theorem C191_refused tensors bs groups pre t post : tl_list tensors = pre ++ t :: post ->
  (forall u, In u pre -> tf_has (t_dtype u) = true /\ (exists_false u \/ exists dims, declared u dims)) ->
  (tf_has (t_dtype t) = false -> dataset tensors bs groups = Err AttributeError) /\
  (forall dims, tf_has (t_dtype t) = true -> exists_true t -> t_shape t = VList (VNone :: map VInt dims) -> (exists z, In z dims /\ (z < 0)%Z) ->
    dataset tensors bs groups = Err ValueError).
Proof.
  intros E HP. assert (O : forall e, output_shapes tf_has (t :: post) = Err e -> dataset tensors bs groups = Err e).
  { intros e He. unfold tf_dataset. rewrite E. replace (output_shapes tf_has (pre ++ t :: post)) with (@Err (list (option (list (option Z)))) e); [reflexivity|].
    clear E. induction pre as [|u pre IH]; [symmetry; exact He|]. destruct (HP u (or_introl eq_refl)) as [Hd Hu]. cbn [app output_shapes]. rewrite Hd. cbn [negb].
    rewrite <- IH by (intros u' H'; apply HP; right; exact H'). destruct Hu as [Hu|[dims Hu]].
    - unfold exists_false in Hu. rewrite Hu. reflexivity.
    - rewrite (tensor_shape_declared _ _ Hu). destruct (truthy (t_exists u)); reflexivity. }
  split.
  - intros Hd. apply O. cbn [output_shapes]. rewrite Hd. reflexivity.
  - intros dims Hd He Hs (z & Hz & Nz). apply O. cbn [output_shapes]. unfold exists_true in He. rewrite Hd, He. cbn [negb truthy]. rewrite Hs. cbn [tensor_shape shape_axes bind].
    replace (shape_axes (map VInt dims)) with (@Err (list (option Z)) ValueError); [reflexivity|].
    clear Hs. induction dims as [|y dims IH]; [destruct Hz|]. cbn [map shape_axes]. destruct (y <? 0)%Z eqn:Y; [reflexivity|]. cbn [bind].
    destruct Hz as [->|Hz]; [apply Z.ltb_ge in Y; lia|]. rewrite <- IH by exact Hz. reflexivity.
Qed.
End Dataset.

(** Tensors for the examples: labels of a number per event, and per event two more numbers *)
Definition one_number (name : string) : tensor :=
  mkTensor name (VList [VNone]) "label" "float32" (VBool true) VNone (VBool false) (VTuple []) VNone (VInt (-1)) (VInt 0) [].
Definition two_numbers (name : string) : tensor :=
  mkTensor name (VList [VNone; VInt 2]) "data" "float32" (VBool true) VNone (VBool false) (VTuple []) VNone (VInt (-1)) (VInt 0) [].
Definition ex_tensors (a b : tensor) : tensor_list := mkTL [a; b] [t_name a; t_name b] [(t_name a, 0); (t_name b, 1)] [(0, t_name a); (1, t_name b)].
Definition pair_of (x : nat) : row (entry_row nat) := (0%Z, {| e_dims := [2%Z]; e_content := x |}).
Definition some_types (s : string) : bool := smem s ["float32"; "int32"].

(** C191: a missing tensor with one number per event is not noticed: the dataset
    delivers zeros in its place. *)
Theorem C191_missing_refuted : exists tensors bs groups out,
  (exists t, nth_error (tl_list tensors) 1 = Some t /\ exists_true t /\ declared t []) /\ Lacking groups 1 /\
  tf_dataset nat some_types 0 tensors bs groups = Ok (out, None) /\ exists b col, In b out /\ nth_error b 1 = Some col /\ col = [zero_row nat 0; zero_row nat 0].
Proof.
  exists (ex_tensors (two_numbers "x") (one_number "y")), 2, [([(2, [Some (Arr [pair_of 5; pair_of 6]); None])], [[0; 1]])]. eexists.
  split; [eexists; split; [reflexivity|split; [reflexivity|split; [left; reflexivity|constructor]]]|].
  split; [eexists; split; [eexists; exists 2; split; [left; reflexivity|left; reflexivity]|reflexivity]|].
  split; [reflexivity|]. do 2 eexists. split; [left; reflexivity|]. split; reflexivity.
Qed.

(** Examples. *)
Example ex_delivered : tf_dataset nat some_types 0 (ex_tensors (two_numbers "x") (two_numbers "y")) 2
    [([(3, [Some (Arr [pair_of 5; pair_of 6; pair_of 7]); Some (Arr [pair_of 1; pair_of 2; pair_of 3])])], [[2; 0; 1]])] =
  Ok ([[[pair_of 7; pair_of 5]; [pair_of 3; pair_of 1]]; [[pair_of 6]; [pair_of 2]]], None).
Proof. reflexivity. Qed.
Example ex_rejected : tf_dataset nat some_types 0 (ex_tensors (two_numbers "x") (two_numbers "y")) 2
    [([(3, [Some (Arr [pair_of 5; pair_of 6; pair_of 7]); None])], [[2; 0; 1]])] = Ok ([], Some TypeError).
Proof. reflexivity. Qed.
Example ex_fixed_rows : tf_dataset nat some_types 0 (ex_tensors (two_numbers "x")
    (mkTensor "y" (VList [VInt 2; VInt 2]) "data" "float32" (VBool true) VNone (VBool false) (VTuple []) VNone (VInt (-1)) (VInt 0) [])) 2
    [([(3, [Some (Arr [pair_of 5; pair_of 6; pair_of 7]); Some (Arr [pair_of 1; pair_of 2; pair_of 3])])], [[2; 0; 1]])] =
  Ok ([[[pair_of 7; pair_of 5]; [pair_of 3; pair_of 1]]], Some TypeError).
Proof. reflexivity. Qed.
Example ex_refused : tf_dataset nat some_types 0 (ex_tensors (two_numbers "x")
    (mkTensor "y" (VList [VNone; VInt (-1)]) "data" "float32" (VBool true) VNone (VBool false) (VTuple []) VNone (VInt (-1)) (VInt 0) [])) 2 [] = Err ValueError.
Proof. reflexivity. Qed.
Example ex_all_rows : AllRows (fun _ v => e_dims nat v = [2%Z])
  [([(3, [Some (Arr [pair_of 5; pair_of 6; pair_of 7]); None])], [[2; 0; 1]])].
Proof.
  intros data i d r (g & n & [<-|[]] & Hg) Hd Hr. cbn in Hg. destruct Hg as [[= <- <-]|[]].
  destruct i as [|[|[|i]]]; try discriminate. injection Hd as <-. cbn in Hr. destruct Hr as [<-|[<-|[<-|[]]]]; reflexivity.
Qed.
Print Assumptions C190_rows.
Print Assumptions C191_accepted.
Print Assumptions C191_delivered.
Print Assumptions C191_fixed_rows.
Print Assumptions C191_missing.
Print Assumptions C191_refused.
Print Assumptions C191_missing_refuted.
