(** Lemmas on the configuration of the module for pulses. *)
From Coq Require Import Reals Lia.
From Verif Require Import Py PyFacts M_Config M_Tensor M_Pulse M_PulseConfig S_PulseConfig.

(** ** Configuration *)
Definition plain_tensor (name : string) (shape : value) (dtype : string) (present : bool) (link : value) : tensor :=
  mkTensor name shape "data" dtype (VBool present) link (VBool false) (VTuple []) VNone (VInt (-1)) (VInt 0) [].
Definition built (fp : string) (pd : Z) (dom time : bool) : list tensor :=
  [ mkTensor "x_dom_charge" grid_shape "data" fp (VBool true) VNone (VBool true) (VTuple [VInt 1; VInt 2]) (VList [VBool true]) (VInt (-1)) (VInt 0) [];
    plain_tensor "x_dom_exclusions" grid_shape "bool" dom VNone;
    plain_tensor "x_pulses" (columns pd) fp true (vector "value" "x_pulses_ids");
    plain_tensor "x_pulses_ids" (columns 3) "int32" true (vector "index" "x_pulses");
    plain_tensor "x_time_exclusions" (columns 2) fp time (vector "value" "x_time_exclusions_ids");
    plain_tensor "x_time_exclusions_ids" (columns 3) "int32" time (vector "index" "x_time_exclusions");
    plain_tensor "x_time_window" (columns 2) fp true VNone ].
Definition built_list (fp : string) (pd : Z) (dom time : bool) : tensor_list :=
  mkTL (built fp pd dom time) (map t_name (built fp pd dom time))
    (combine (map t_name (built fp pd dom time)) (seq 0 7)) (combine (seq 0 7) (map t_name (built fp pd dom time))).

Definition numpy_ok (np_has : string -> bool) (prec : value) : bool :=
  match prec with VStr fp => np_has fp && np_has "bool" && np_has "int32" | _ => false end.

Lemma tensors_init_ok np_has fp pd dom time : numpy_ok np_has (VStr fp) = true ->
  bind (tensors_init np_has (tensor_arguments (VStr fp) pd dom time)) tensor_list_init = Ok (built_list fp pd dom time).
Proof.
  cbn [numpy_ok]. intros H. apply andb_prop in H. destruct H as [H Hi]. apply andb_prop in H. destruct H as [Hf Hb].
  unfold tensors_init, tensor_arguments, tensor_init. cbn -[String.leb]. rewrite Hf. cbn -[String.leb]. rewrite Hb. cbn -[String.leb].
  rewrite Hi. cbn. reflexivity.
Qed.

Lemma tensors_init_bad np_has prec pd dom time : numpy_ok np_has prec = false ->
  bind (tensors_init np_has (tensor_arguments prec pd dom time)) tensor_list_init = Err ValueError.
Proof.
  intros H. unfold tensors_init, tensor_arguments, tensor_init. destruct prec; try reflexivity. cbn [numpy_ok] in H.
  cbn. destruct (np_has s); [|reflexivity]. cbn. destruct (np_has "bool"); [|reflexivity]. cbn.
  destruct (np_has "int32"); [discriminate|]. reflexivity.
Qed.

Definition mutable_of (s : keys) : dict value :=
  [("pulse_key", k_pulse s); ("dom_exclusions_key", k_dom s); ("time_exclusions_key", k_time s); ("discard_pulses_from_excluded_doms", k_discard s)].
Definition fixed_of (cd : config_data) (prec : value) (q : bool) : dict value :=
  [("config_data", data_value cd); ("float_precision", prec); ("add_charge_quantiles", VBool q)].
Definition dict_of (rv : string) (cd : config_data) (prec : value) (q : bool) (s : keys) : config :=
  mkConfig rv VNone pulse_class [] (fixed_of cd prec q) (mutable_of s) [] [] [].
(** A module with stored settings and settings in effect *)
Definition state (rv : string) (cd : config_data) (fp : string) (q dom time : bool) (st : keys * keys) : pulse_module :=
  {| pm_conf := mkConf (dict_of rv cd (VStr fp) q (fst st)) (fixed_of cd (VStr fp) q ++ mutable_of (snd st));
     pm_tensors := built_list fp (if q then 3%Z else 2%Z) dom time; pm_time_exist := time; pm_dom_exist := dom |}.

Definition data_fits (cd : config_data) (tl : tensor_list) : bool := match cd with Plain _ => true | Tensors t => tensors_eqb t tl end.

Lemma configure_cases np_has rv cd p d t prec q x :
  pulse_configure np_has rv cd p d t prec q x =
  match p with
  | VStr _ =>
      match prec with
      | VStr fp => if numpy_ok np_has prec && data_fits cd (built_list fp (if q then 3%Z else 2%Z) (given d) (given t))
                   then Ok (state rv cd fp q (given d) (given t) (let s := {| k_pulse := p; k_dom := d; k_time := t; k_discard := x |} in (s, s)))
                   else Err ValueError
      | _ => Err ValueError
      end
  | _ => Err TypeError
  end.
Proof.
  destruct p; try reflexivity. unfold pulse_configure.
  assert (B : forall A (r : result (list tensor)) (k : tensor_list -> result A),
    bind r (fun ts => bind (tensor_list_init ts) k) = bind (bind r tensor_list_init) k) by (intros A [ts|e] k; reflexivity).
  rewrite B. destruct (numpy_ok np_has prec) eqn:E.
  - destruct prec as [| | |fp| | |]; try discriminate. rewrite tensors_init_ok by exact E. cbn [bind andb].
    destruct cd as [v|tl]; cbn [data_fits]; [reflexivity|]. destruct (tensors_eqb tl _); reflexivity.
  - rewrite tensors_init_bad by exact E. destruct prec; reflexivity.
Qed.

Lemma configure_ok np_has rv cd p d t prec q x m : pulse_configure np_has rv cd p d t prec q x = Ok m ->
  exists pk fp, p = VStr pk /\ prec = VStr fp /\ numpy_ok np_has prec = true /\
    data_fits cd (built_list fp (if q then 3%Z else 2%Z) (given d) (given t)) = true /\
    m = state rv cd fp q (given d) (given t) (let s := {| k_pulse := p; k_dom := d; k_time := t; k_discard := x |} in (s, s)).
Proof.
  rewrite configure_cases. destruct p as [| | |pk| | |]; try discriminate. destruct prec as [| | |fp| | |]; try discriminate.
  destruct (numpy_ok np_has (VStr fp)) eqn:E; [|discriminate]. cbn [andb]. destruct (data_fits _ _) eqn:F; [|discriminate].
  intros H. injection H as <-. exists pk, fp. auto.
Qed.

(** ** Updates *)
Lemma assign_mutable name v s : dmem name (mutable_of s) = (match assign name v s with Some _ => true | None => false end) /\
  forall s', assign name v s = Some s' -> dset name v (mutable_of s) = mutable_of s'.
Proof.
  unfold assign, mutable_of, dmem. cbn [dget dset]. 
  destruct (String.eqb_spec name "pulse_key") as [->|N1]; [split; [reflexivity|intros s' [= <-]; reflexivity]|].
  destruct (String.eqb_spec name "dom_exclusions_key") as [->|N2]; [split; [reflexivity|intros s' [= <-]; reflexivity]|].
  destruct (String.eqb_spec name "time_exclusions_key") as [->|N3]; [split; [reflexivity|intros s' [= <-]; reflexivity]|].
  destruct (String.eqb_spec name "discard_pulses_from_excluded_doms") as [->|N4]; [split; [reflexivity|intros s' [= <-]; reflexivity]|].
  split; [|discriminate]. reflexivity.
Qed.

Lemma update_loop_eq new : forall s, update_loop new (mutable_of s) =
  (mutable_of (fst (assign_all new s)), if snd (assign_all new s) then None else Some KeyError).
Proof.
  induction new as [|[name v] new IH]; intros s; [reflexivity|]. cbn [update_loop assign_all].
  destruct (assign_mutable name v s) as [H1 H2]. rewrite H1. destruct (assign name v s) as [s'|]; [|reflexivity].
  rewrite (H2 s' eq_refl). apply IH.
Qed.

Lemma update_eq rv cd fp q dom time st new : update_settings new (state rv cd fp q dom time st) =
  (state rv cd fp q dom time (step st new), if snd (assign_all new (fst st)) then None else Some KeyError).
Proof.
  unfold update_settings, update_mutable_settings. cbn [pm_conf state co_dict c_mutable dict_of]. rewrite update_loop_eq. unfold step.
  destruct (assign_all new (fst st)) as [s ok]. cbn [fst snd]. destruct ok; reflexivity.
Qed.

Lemma updates_eq rv cd fp q dom time news : forall st, updates news (state rv cd fp q dom time st) =
  state rv cd fp q dom time (fold_left step news st).
Proof.
  unfold updates. induction news as [|new news IH]; intros st; [reflexivity|]. cbn [fold_left]. rewrite update_eq. cbn [fst]. apply IH.
Qed.

(** ** Reading *)
Definition config_of (q dom time : bool) (s : keys) : pconfig :=
  {| quant := q; dom_key := dom; time_key := time; discard := M_Handler.truthy (k_discard s) |}.

Lemma frame_data_eq bad rv cd fp q dom time st f : frame_data bad (state rv cd fp q dom time st) f =
  bind (item (fo_pulses f) (k_pulse (snd st))) (fun pulses =>
  bind (optional_item dom (fo_doms f) (Ok (k_dom (snd st)))) (fun doms =>
  bind (optional_item time (fo_times f) (Ok (k_time (snd st)))) (fun times =>
  read_frame bad (config_of q dom time (snd st)) {| g_pulses := pulses; g_doms := doms; g_times := times |}))).
Proof. reflexivity. Qed.

Lemma file_data_eq bad rv cd fp q dom time st j f : file_data bad (state rv cd fp q dom time st) j f =
  match
    bind (item (ft_pulses f) (k_pulse (snd st))) (fun pulses =>
    bind (match ft_labels f with Some l => Ok l | None => Err KeyError end) (fun labels =>
    bind (optional_item dom (ft_doms f) (Ok (k_dom (snd st)))) (fun doms =>
    bind (optional_item time (ft_times f) (Ok (k_time (snd st)))) (fun times =>
    Ok {| f_labels := Some labels; f_pulses := Some pulses; f_doms := doms; f_times := times |}))))
  with
  | Err _ => Ok None
  | Ok h => read_hdf bad (config_of q dom time (snd st)) j h
  end.
Proof. reflexivity. Qed.

Lemma optional_seen {A} before now (d : dict A) : optional_item (given (seen before now)) d (Ok (seen before now)) =
  if given before then optional_item (given now) d (Ok now) else Ok None.
Proof. destruct before; reflexivity. Qed.

Lemma optional_no_name {A} exist (d : dict A) v : exist = true -> (forall s, v <> VStr s) -> optional_item exist d (Ok v) = Err TypeError.
Proof. intros -> H. destruct v; try reflexivity. destruct (H s eq_refl). Qed.

Lemma optional_cases {A} exist (d : dict A) v : (exists o, optional_item exist d (Ok v) = Ok o) \/ optional_item exist d (Ok v) = Err TypeError.
Proof.
  unfold optional_item. destruct exist; [|eauto]. cbn [bind]. destruct v; cbn [item]; auto. destruct (dget s d); eauto.
Qed.

(** ** Equality of lists of tensors *)
Lemma to_dict_eqb a b : deqb (to_dict a) (to_dict b) =
  String.eqb (t_name a) (t_name b) && (veqb (t_shape a) (t_shape b) && (String.eqb (t_type a) (t_type b) && (String.eqb (t_dtype a) (t_dtype b) &&
  (veqb (t_exists a) (t_exists b) && (veqb (t_vector_info a) (t_vector_info b) && (veqb (t_trafo a) (t_trafo b) && (veqb (t_reduce_axes a) (t_reduce_axes b) &&
  (veqb (t_log a) (t_log b) && (veqb (t_log_axis a) (t_log_axis b) && (veqb (t_batch_axis a) (t_batch_axis b) && (veqb (VDict (t_specs a)) (VDict (t_specs b)) && true))))))))))).
Proof. reflexivity. Qed.
Lemma vector_eqb a b : veqb (vector a b) (vector a b) = true.
Proof. unfold vector. cbn. rewrite !String.eqb_refl. reflexivity. Qed.
Lemma bool_eqb a b : veqb (VBool a) (VBool b) = Bool.eqb a b.
Proof. destruct a, b; reflexivity. Qed.
Lemma plain_eqb name shape dtype e link shape' dtype' e' : veqb link link = true ->
  deqb (to_dict (plain_tensor name shape dtype e link)) (to_dict (plain_tensor name shape' dtype' e' link)) =
  veqb shape shape' && (String.eqb dtype dtype' && Bool.eqb e e').
Proof.
  intros H. rewrite to_dict_eqb. unfold plain_tensor. cbn [t_name t_shape t_type t_dtype t_exists t_vector_info t_trafo t_reduce_axes t_log t_log_axis t_batch_axis t_specs].
  rewrite String.eqb_refl, H, bool_eqb. cbn [andb]. destruct (veqb shape shape'), (String.eqb dtype dtype'), (Bool.eqb e e'); reflexivity.
Qed.
Lemma columns_eqb n n' : veqb (columns n) (columns n') = Z.eqb n n'.
Proof. unfold columns. rewrite veqb_list. cbn. apply andb_true_r. Qed.
Lemma built_eqb fp pd dom time fp' pd' dom' time' : tensors_eqb (built_list fp pd dom time) (built_list fp' pd' dom' time') =
  String.eqb fp fp' && Z.eqb pd pd' && Bool.eqb dom dom' && Bool.eqb time time'.
Proof.
  unfold tensors_eqb, serialize, built_list, built. cbn [tl_list map list_eqb].
  rewrite !plain_eqb by (reflexivity || apply vector_eqb). rewrite !columns_eqb.
  rewrite to_dict_eqb. cbn [t_name t_shape t_type t_dtype t_exists t_vector_info t_trafo t_reduce_axes t_log t_log_axis t_batch_axis t_specs].
  change (veqb grid_shape grid_shape) with true. rewrite !String.eqb_refl, !Z.eqb_refl. cbn [andb Bool.eqb].
  destruct (String.eqb fp fp'), (Z.eqb pd pd'), (Bool.eqb dom dom'), (Bool.eqb time time'); reflexivity.
Qed.

Lemma vwf_built fp pd dom time : Forall dvwf (serialize (built_list fp pd dom time)).
Proof.
  assert (N : forall t, vwf (t_shape t) -> vwf (t_exists t) -> vwf (t_vector_info t) -> vwf (t_trafo t) -> vwf (t_reduce_axes t) -> vwf (t_log t) ->
    vwf (t_log_axis t) -> vwf (t_batch_axis t) -> t_specs t = [] -> dvwf (to_dict t)).
  { intros t H1 H2 H3 H4 H5 H6 H7 H8 H9. split.
    - unfold dwf, to_dict. cbn. repeat constructor; cbn; intuition discriminate.
    - unfold to_dict. rewrite H9. repeat (constructor; [cbn [snd]; try assumption; repeat constructor|]). constructor. }
  assert (V : forall a b, vwf (vector a b)) by (intros a b; constructor; [unfold dwf; cbn; repeat constructor; cbn; intuition discriminate|repeat constructor]).
  unfold serialize, built_list, built, plain_tensor. cbn [map tl_list].
  repeat (constructor; [apply N; cbn [t_shape t_exists t_vector_info t_trafo t_reduce_axes t_log t_log_axis t_batch_axis t_specs]; try apply V; try reflexivity;
    repeat constructor|]). constructor.
Qed.

Lemma list_deqb_trans (a b c : list (dict value)) : Forall dvwf a -> Forall dvwf b -> Forall dvwf c ->
  list_eqb deqb a b = true -> list_eqb deqb b c = true -> list_eqb deqb a c = true.
Proof.
  revert b c. induction a as [|x a IH]; intros [|y b] [|z c] Ha Hb Hc E F; try discriminate; [reflexivity|]. cbn in *.
  apply andb_prop in E. apply andb_prop in F. destruct E as [E1 E2], F as [F1 F2]. inversion Ha; inversion Hb; inversion Hc; subst.
  rewrite (deqb_trans x y z) by assumption. apply (IH b c); assumption.
Qed.
Lemma list_deqb_sym (a b : list (dict value)) : Forall dvwf a -> Forall dvwf b -> list_eqb deqb a b = list_eqb deqb b a.
Proof.
  revert b. induction a as [|x a IH]; intros [|y b] Ha Hb; try reflexivity. cbn. inversion Ha; inversion Hb; subst.
  rewrite (deqb_sym x y) by assumption. f_equal. apply IH; assumption.
Qed.
Lemma data_value_eqb a b : veqb (data_value (Tensors a)) (data_value (Tensors b)) = tensors_eqb a b.
Proof.
  unfold data_value, tensors_eqb. rewrite veqb_tuple. cbn [list_eqb]. rewrite veqb_list. cbn [veqb]. rewrite String.eqb_refl, andb_true_r. cbn [andb].
  generalize (serialize b). induction (serialize a) as [|x l IH]; intros [|y l']; cbn [map list_eqb]; try reflexivity. rewrite veqb_dict, IH. reflexivity.
Qed.

(** ** Compatibility *)
Lemma compatible_eq rv rv1 rv2 cd1 cd2 fp1 fp2 q1 q2 s1 s2 :
  is_compatible rv (dict_of rv1 cd1 (VStr fp1) q1 s1) (dict_of rv2 cd2 (VStr fp2) q2 s2) =
  Ok (veqb (data_value cd1) (data_value cd2) && String.eqb fp1 fp2 && Bool.eqb q1 q2).
Proof.
  unfold dict_of. cbn [is_compatible c_settings c_check c_class c_subs].
  assert (D : deqb (fixed_of cd1 (VStr fp1) q1) (fixed_of cd2 (VStr fp2) q2) =
    veqb (data_value cd1) (data_value cd2) && (String.eqb fp1 fp2 && (veqb (VBool q1) (VBool q2) && true))) by reflexivity.
  rewrite D, bool_eqb, andb_true_r, String.eqb_refl, andb_assoc. clear D. generalize (veqb (data_value cd1) (data_value cd2) && String.eqb fp1 fp2 && Bool.eqb q1 q2). intros [|]; reflexivity.
Qed.
