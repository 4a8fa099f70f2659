(** Properties of the names of parameters and of sources made of several
    sources: C160 to C164. *)
From Coq Require Import Lia.
From Verif Require Import Py PyFacts PyStr M_Config M_Component M_Build L_Build M_Multi S_Multi L_Multi.
From Verif Require M_Train L_Train L_Source.

(** * C160: names and indices *)

(** The index of a name is its last place; an unknown name is a KeyError. *)
Theorem C160_index names n : let s := {| n_configured := true; n_names := Some names |} in
  (forall i, get_index s n = Ok i <-> Last names n i) /\ (get_index s n = Err KeyError <-> ~ In n names) /\
  (In n names -> exists i, get_index s n = Ok i).
Proof.
  cbn zeta. unfold get_index. cbn. unfold lookup. destruct (name_dict_get names n) as [A B].
  destruct (in_dec string_dec n names) as [Y | N].
  - destruct (last_exists names n Y) as [i HI]. rewrite (A i HI). repeat split; try discriminate; try tauto; try (intros; eexists; reflexivity).
    + injection H as <-. apply HI.
    + injection H as <-. apply HI.
    + intros H. f_equal. exact (last_unique _ _ _ _ HI H).
  - rewrite (B N). repeat split; try discriminate; try tauto.
    intros [H _]. exfalso. apply N. exact (nth_error_In _ _ H).
Qed.

(** Names by index: only the indices from zero on, negative ones do not count
    from the end. *)
Theorem C160_name names i : let s := {| n_configured := true; n_names := Some names |} in
  get_name s i = match (if (i <? 0)%Z then None else nth_error names (Z.to_nat i)) with Some n => Ok n | None => Err KeyError end.
Proof.
  cbn zeta. unfold get_name. cbn. unfold index_dict, enumerate. rewrite (index_dict_get names 0 i), Nat.sub_0_r. reflexivity.
Qed.

(** A name is found again under its index; an index is found again under its
    name, for all indices, exactly if the names are different. *)
Theorem C160_round_trip names : let s := {| n_configured := true; n_names := Some names |} in
  (forall n i, get_index s n = Ok i -> get_name s (Z.of_nat i) = Ok n) /\
  ((forall i n, get_name s (Z.of_nat i) = Ok n -> get_index s n = Ok i) <-> NoDup names).
Proof.
  cbn zeta.
  assert (HN : forall i n, get_name {| n_configured := true; n_names := Some names |} (Z.of_nat i) = Ok n <-> nth_error names i = Some n).
  { intros i n. rewrite (C160_name names (Z.of_nat i)). cbn zeta. destruct (Z.ltb_spec (Z.of_nat i) 0) as [H | H]; [lia |].
    rewrite Nat2Z.id. destruct (nth_error names i); split; congruence. }
  split.
  - intros n i H. apply HN. apply (C160_index names n) in H. exact (proj1 H).
  - split.
    + intros H. apply NoDup_nth_error. intros i j Hi E. destruct (nth_error names i) as [n |] eqn:EI; [| apply nth_error_None in EI; lia].
      symmetry in E. apply HN in EI, E. apply H in EI, E. congruence.
    + intros H i n E. apply HN in E. apply (C160_index names n). apply nodup_last; assumption.
Qed.

(** The columns by name: refused if there are not as many columns as names;
    otherwise every name stands for the column with its index, and only names of
    parameters are known. *)
Theorem C160_columns {A} names (columns : list A) b : let s := {| n_configured := b; n_names := Some names |} in
  (length columns <> length names -> params_of s columns = Err ValueError) /\
  (length columns = length names -> exists d, params_of s columns = Ok d /\
     forall n, dget n d = match get_index {| n_configured := true; n_names := Some names |} n with Ok i => nth_error columns i | Err _ => None end).
Proof.
  cbn zeta. unfold params_of, names_held, indexer. cbn [n_names bind]. split.
  - intros H. destruct (Nat.eqb_spec (length columns) (length names)); [contradiction | reflexivity].
  - intros H. destruct (Nat.eqb_spec (length columns) (length names)); [| contradiction]. cbn [negb]. eexists. split; [reflexivity |].
    intros n. destruct (fold_last names columns [] n H) as [F1 F2]. destruct (C160_index names n) as (I1 & I2 & _).
    destruct (in_dec string_dec n names) as [Y | N].
    + destruct (last_exists names n Y) as [i HI]. rewrite (F1 i HI), (proj2 (I1 i) HI). reflexivity.
    + rewrite (F2 N), (proj2 I2 N). reflexivity.
Qed.

(** Before configuring there are neither indices nor names nor columns. *)
Theorem C160_unconfigured {A} s n i (columns : list A) :
  (n_configured s = false -> get_index s n = Err ValueError /\ get_name s i = Err ValueError) /\
  (n_names s = None -> params_of s columns = Err KeyError) /\
  (forall v, (assert_configured v s = Ok tt <-> v = VBool (n_configured s)) /\
             (assert_configured v s = Err ValueError <-> v = VBool (negb (n_configured s))) /\
             (assert_configured v s = Err TypeError <-> forall b, v <> VBool b)).
Proof.
  split; [| split].
  - intros H. unfold get_index, get_name, assert_configured. rewrite H. split; reflexivity.
  - intros H. unfold params_of, names_held. rewrite H. reflexivity.
  - intros v. unfold assert_configured. destruct v; try (repeat split; congruence).
    destruct b, (n_configured s); cbn; repeat split; try congruence; intros H; exfalso; apply (H _ eq_refl).
Qed.

(** * C161: names of independent sources *)

Lemma string_values_keys d s : string_values d = Ok s -> dkeys s = dkeys d.
Proof.
  revert s. induction d as [| [k v] d IH]; intros s H; cbn [string_values] in H; [injection H as <-; reflexivity |].
  destruct v; try discriminate. destruct (string_values d) as [r |]; [| discriminate]. injection H as <-. cbn. f_equal. exact (IH r eq_refl).
Qed.

Section Names.
Variable names_of : component -> list string.

Lemma independent_inv config bases names sources : vwf config -> independent_mapping names_of config bases = Ok (names, sources) ->
  dwf sources /\ independent_names names_of bases sources (M_Train.ssort (dkeys sources)) = Ok names.
Proof.
  unfold independent_mapping, lookup. intros HW H. destruct config as [| | | | | | c]; try discriminate.
  destruct (dget "sources" c) as [v |] eqn:E; [| discriminate]. cbn [bind] in H. destruct v as [| | | | | | d]; try discriminate.
  destruct (string_values d) as [s |] eqn:ES; [| discriminate]. cbn [bind] in H.
  destruct (independent_names _ _ _ _) as [l |] eqn:EN; [| discriminate]. cbn [bind] in H. injection H as <- <-. split; [| exact EN].
  unfold dwf. rewrite (string_values_keys d s ES). inversion HW as [| | | | | | ? HD HF]; subst. apply dget_In in E.
  rewrite Forall_forall in HF. specialize (HF _ E). cbn in HF. inversion HF; subst. assumption.
Qed.

(** The names of the parameters are different if no source name extended by an
    underscore begins another one and every base has different names. *)
Theorem C161_unique config bases names sources : vwf config ->
  independent_mapping names_of config bases = Ok (names, sources) -> Apart (dkeys sources) ->
  (forall s b x, dget s sources = Some b -> dget b bases = Some x -> NoDup (names_of x)) -> NoDup names.
Proof.
  intros HW HM HA HB. destruct (independent_inv _ _ _ _ HW HM) as [HD HN]. destruct (names_flat names_of bases sources _ _ HN) as [-> HF].
  apply NoDup_flat_map.
  - apply L_Source.ssort_nodup. exact HD.
  - intros s HS. destruct (HF s HS) as (b & x & E1 & E2). unfold full, base_names. rewrite E1, E2.
    apply FinFun.Injective_map_NoDup; [| exact (HB s b x E1 E2)].
    intros v w E. apply PyStrFacts.append_inj_l in E. injection E as E. exact E.
  - intros s t z HS HT H1 H2. unfold full in H1, H2. apply in_map_iff in H1, H2. destruct H1 as (v & <- & _). destruct H2 as (w & E & _).
    rewrite L_Train.ssort_in in HS, HT. symmetry in E. apply joined in E. destruct E as [E | [(u & E) | (u & E)]]; [exact E | |].
    + exfalso. exact (HA s t u HS HT E).
    + exfalso. exact (HA t s u HT HS E).
Qed.

(** Then the value found under the name of a source and of one of its
    parameters is the one handed to that source for that parameter. *)
Theorem C161_by_name {A} config bases subs names sources (columns : list A) : vwf config ->
  independent_mapping names_of config bases = Ok (names, sources) -> Apart (dkeys sources) ->
  (forall s b x, dget s sources = Some b -> dget b bases = Some x -> NoDup (names_of x)) ->
  (forall s b, dget s sources = Some b -> dget b subs = dget b bases) ->
  length columns = length names ->
  exists d blocks, indexer names columns = Ok d /\ independent_split names_of subs sources columns = Ok blocks /\
    forall s b, dget s sources = Some b -> exists x block di,
      dget b bases = Some x /\ dget s blocks = Some block /\ indexer (names_of x) block = Ok di /\
      forall v, In v (names_of x) -> exists y, dget v di = Some y /\ dget (s ++ "_" ++ v)%string d = Some y.
Proof.
  intros HW HM HA HB HS HL. pose proof (C161_unique _ _ _ _ HW HM HA HB) as HU.
  destruct (independent_inv _ _ _ _ HW HM) as [HD HN]. destruct (names_flat names_of bases sources _ _ HN) as [EN HF].
  destruct (C160_columns names columns true) as [_ HC]. destruct (HC HL) as (d & HP & HG). cbn in HP.
  destruct (blocks_get names_of bases sources subs columns (M_Train.ssort (dkeys sources)) 0 []) as (blocks & EB & _ & HBl).
  { intros s HI. destruct (HF s HI) as (b & x & E1 & E2). exists b, x. split; [exact E1 |]. split; [exact E2 |]. rewrite (HS s b E1). exact E2. }
  { apply L_Source.ssort_nodup. exact HD. }
  exists d, blocks. split; [exact HP |]. split; [exact EB |]. intros s b E1.
  assert (HI : In s (M_Train.ssort (dkeys sources))) by (apply L_Train.ssort_in; exact (dget_Some_In_keys _ _ _ E1)).
  destruct (HF s HI) as (b' & x & E1' & E2). assert (b' = b) by congruence. subst b'.
  destruct (in_split _ _ HI) as (l1 & l2 & EL). specialize (HBl l1 s l2 EL). rewrite Nat.add_0_l in HBl.
  assert (EBN : base_names names_of bases sources s = names_of x) by (unfold base_names; rewrite E1, E2; reflexivity). rewrite EBN in HBl.
  set (k := length (flat_map (full names_of bases sources) l1)) in *.
  assert (EN' : names = flat_map (full names_of bases sources) l1 ++ map (fun v => (s ++ "_" ++ v)%string) (names_of x) ++ flat_map (full names_of bases sources) l2).
  { rewrite EN, EL, flat_map_app. cbn [flat_map]. unfold full at 2. rewrite EBN. reflexivity. }
  assert (HK : k + length (names_of x) <= length columns).
  { rewrite HL, EN', !app_length, map_length. fold k. lia. }
  set (block := firstn (length (names_of x)) (skipn k columns)) in *.
  assert (HLB : length block = length (names_of x)) by (unfold block; rewrite firstn_length, skipn_length; lia).
  destruct (C160_columns (names_of x) block true) as [_ HCB]. destruct (HCB HLB) as (di & HPi & HGi). cbn in HPi.
  exists x, block, di. split; [exact E2 |]. split; [exact HBl |]. split; [exact HPi |]. intros v HV.
  apply In_nth_error in HV. destruct HV as [j HV]. assert (HJ : j < length (names_of x)) by (apply nth_error_Some; congruence).
  destruct (nth_error block j) as [y |] eqn:EY; [| apply nth_error_None in EY; lia]. exists y. split.
  - rewrite HGi. destruct (C160_index (names_of x) v) as [I1 _]. rewrite (proj2 (I1 j)); [exact EY |].
    apply nodup_last; [exact (HB s b x E1 E2) | exact HV].
  - rewrite HG. destruct (C160_index names (s ++ "_" ++ v)%string) as [I1 _]. rewrite (proj2 (I1 (k + j))).
    + unfold block in EY. rewrite nth_error_firstn in EY by exact HJ. rewrite nth_error_skipn in EY. exact EY.
    + apply nodup_last; [exact HU |]. rewrite EN'. rewrite nth_error_app2 by (fold k; lia). fold k.
      replace (k + j - k) with j by lia. rewrite nth_error_app1 by (rewrite map_length; exact HJ).
      rewrite nth_error_map, HV. reflexivity.
Qed.
End Names.

(** * C162: configuring *)

Section Configure.
Variables (running_version : string) (git : value) (cls : string) (get_mapping : mapping).

Notation multi_configure := (multi_configure running_version git cls get_mapping).

Lemma with_trafo_get t bases k : dget k (with_trafo t bases) =
  match t with Given t => if String.eqb k "data_trafo" then Some t else dget k bases | _ => dget k bases end.
Proof.
  destruct t as [| | t]; try reflexivity. cbn [with_trafo]. destruct (String.eqb_spec k "data_trafo") as [-> | N]; [apply dget_dset_same | apply dget_dset_other; exact N].
Qed.

Lemma params_get t bases k : dwf bases -> dget k (dupdate (start t) bases) =
  match dget k bases with Some x => Some x
  | None => match t with Given t => if String.eqb k "data_trafo" then Some t else None | _ => None end end.
Proof.
  intros HD. rewrite dget_dupdate by exact HD. destruct (dget k bases); [reflexivity |]. destruct t; reflexivity.
Qed.

(** A usable call with a dictionary of configured sources, for which the
    parameters can be determined, gives a configured source with these parameters
    and sources; its sub-components are the dictionary of the caller, into which
    the transformer was put.  The recorded configurations are those of the
    entries found in the dictionary; the one of the transformer is only recorded
    if the dictionary had no entry of this name. *)
Theorem C162_configured h loc c names sources : UsableCall c -> dwf (h loc) -> (forall k x, dget k (h loc) = Some x -> Ready x) ->
  get_mapping (a_config c) (h loc) = Ok (names, sources) ->
  exists h' m, multi_configure h loc c = (h', m, None) /\
    k_configured (m_comp m) = true /\ m_loc m = loc /\ m_names m = names /\ m_sources m = sources /\ m_name m = name_given (a_name c) /\
    (exists cf, k_conf (m_comp m) = Some cf /\ dget "config" (co_config cf) = Some (a_config c) /\ dget "name" (co_config cf) = Some (m_name m)) /\
    (forall l, l <> loc -> h' l = h l) /\ h' loc = with_trafo (a_trafo c) (h loc) /\
    (forall k, live h' m k = match a_trafo c with Given t => if String.eqb k "data_trafo" then Some t else dget k (h loc) | _ => dget k (h loc) end) /\
    (forall k, recorded m k = match dget k (h loc) with
                              | Some x => config_of x
                              | None => match a_trafo c with Given t => if String.eqb k "data_trafo" then config_of t else None | _ => None end
                              end).
Proof.
  intros HU HD HR HM. unfold M_Multi.multi_configure. set (bases := h loc) in *.
  assert (HA : forallb (fun kv => k_configured (snd kv)) bases = true).
  { apply forallb_forall. intros [k x] HI. apply (HR k). apply In_dget; assumption. }
  pose proof (collect_kwargs c bases HU) as HC. rewrite HA in HC. destruct HC as (missing & HC & HP).
  set (params := dupdate (start (a_trafo c)) bases) in *.
  set (name := name_given (a_name c)).
  set (cf0 := mkConf (mkConfig running_version git cls [] [("config"%string, a_config c)] [("name"%string, name)] [] [] []) [("config"%string, a_config c); ("name"%string, name)]).
  assert (HDer : derived running_version git cls get_mapping c bases = Ok (mkHook cf0 (VDict []) (HDict (with_trafo (a_trafo c) bases)) [], (names, sources))).
  { unfold derived. rewrite HM. reflexivity. }
  assert (HRP : forall k x, In (k, x) params -> Ready x).
  { intros k x HI. apply In_dupdate in HI. destruct HI as [HI | HI].
    - destruct HU as (_ & _ & HT). destruct (a_trafo c) as [| | t]; cbn in HI; try contradiction. destruct HI as [HI | []]. injection HI as <- <-. exact HT.
    - apply (HR k). apply In_dget; assumption. }
  assert (HDP : dwf params).
  { apply dwf_dupdate. unfold dwf. destruct (a_trafo c); cbn; repeat constructor; intros []. }
  destruct (add_subs_ready params cf0 HDP HRP) as (cf1 & F1 & F2 & F3 & F4 & F5); [reflexivity |].
  assert (HDep : add_dependent_sub_components (dkeys (with_trafo (a_trafo c) bases)) cf1
                 = (mkConf (set_dep (c_dep (co_dict cf1) ++ dkeys (with_trafo (a_trafo c) bases)) (co_dict cf1)) (co_config cf1), None)).
  { unfold add_dependent_sub_components, check_dependent_names.
    assert (E : forallb (fun n => dmem n (c_subs (co_dict cf1))) (dkeys (with_trafo (a_trafo c) bases)) = true).
    { apply forallb_forall. intros k HI. apply dmem_In. apply In_keys_dget in HI. destruct HI as [x HI]. rewrite with_trafo_get in HI.
      assert (HX : exists x, dget k params = Some x).
      { unfold params. rewrite params_get by exact HD. destruct (dget k bases) as [y |]; [exists y; reflexivity |].
        destruct (a_trafo c) as [| | t]; try discriminate. destruct (String.eqb k "data_trafo"); [exists t; reflexivity | discriminate]. }
      destruct HX as [y HX]. apply (dget_Some_In_keys k (match config_of y with Some z => z | None => co_dict cf0 end)). rewrite F5, HX.
      destruct (HRP k y (dget_In _ _ _ HX)) as [_ HK]. unfold config_of. destruct (k_conf y); [reflexivity | congruence]. }
    rewrite E. reflexivity. }
  assert (HS : check_settings missing (co_config cf1) = None).
  { apply (settings_checked c); [exact HU | exact HP | rewrite F2; reflexivity | rewrite F2; reflexivity]. }
  set (cf2 := mkConf (set_dep (c_dep (co_dict cf1) ++ dkeys (with_trafo (a_trafo c) bases)) (co_dict cf1)) (co_config cf1)) in *.
  assert (HConf : configure (fun _ => bind (derived running_version git cls get_mapping c bases) (fun r => Ok (fst r))) (kwargs_of c bases) (new_component cls)
                  = (mkComp cls [] true (Some cf2) (VDict []) (with_trafo (a_trafo c) bases), None)).
  { unfold configure. cbn [new_component k_configured k_untracked length Nat.eqb negb]. rewrite HC, HDer. cbn [bind fst h_data h_subs h_conf h_untracked k_class].
    rewrite F1, HDep. cbn [cf2 co_dict co_config set_dep c_mut_subs]. rewrite F3. cbn. rewrite HS. reflexivity. }
  rewrite HConf, HC, HDer. eexists _, _. split; [reflexivity |]. cbn [m_comp m_loc m_name m_names m_sources k_configured k_conf].
  repeat (split; [reflexivity |]).
  split; [exists cf2; split; [reflexivity |]; cbn [cf2 co_config]; rewrite F2; split; reflexivity |].
  split; [intros l Hl; unfold upd; destruct (Nat.eqb_spec l loc); [contradiction | reflexivity] |].
  split; [unfold upd; rewrite Nat.eqb_refl; reflexivity |]. split.
  - intros k. unfold live. cbn [m_loc]. unfold upd. rewrite Nat.eqb_refl. apply with_trafo_get.
  - intros k. unfold recorded. cbn [m_comp k_conf cf2 co_dict set_dep c_subs]. rewrite F5. unfold params. rewrite params_get by exact HD.
    destruct (dget k bases); [reflexivity |]. destruct (a_trafo c) as [| | t]; try reflexivity. destruct (String.eqb k "data_trafo"); reflexivity.
Qed.

(** What is refused, and that the dictionary of the caller is left alone by
    calls that are refused early. *)
Theorem C162_refused h loc c :
  let '(h', _, e) := multi_configure h loc c in
  ((exists k x, In (k, x) (h loc) /\ k_configured x = false) -> e = Some ValueError /\ h' = h) /\
  ((exists t, a_trafo c = Given t /\ k_configured t = false) -> e = Some ValueError /\ h' = h) /\
  (forall e', (forall k x, In (k, x) (h loc) -> k_configured x = true) -> (forall t, a_trafo c = Given t -> k_configured t = true) ->
     get_mapping (a_config c) (h loc) = Err e' -> e = Some e' /\ h' = h) /\
  (a_trafo c = GivenNone \/ a_name c = Some VNone -> e <> None).
Proof.
  destruct (multi_configure h loc c) as [[h' m] e] eqn:E. unfold M_Multi.multi_configure in E. set (bases := h loc) in *.
  pose proof (collect_all c bases) as HC. unfold configure in E. cbn [new_component k_configured k_untracked length Nat.eqb negb] in E.
  destruct (trafo_ready (a_trafo c) && forallb (fun kv => k_configured (snd kv)) bases) eqn:ER.
  - apply andb_true_iff in ER. destruct ER as [ER1 ER2]. rewrite forallb_forall in ER2. destruct HC as (missing & HC & HG & HN). rewrite HC in E.
    split; [| split; [| split]].
    + intros (k & x & HI & HX). specialize (ER2 _ HI). cbn in ER2. congruence.
    + intros (t & ET & HX). rewrite ET in ER1. cbn in ER1. congruence.
    + intros e' _ _ HM. unfold derived in E. rewrite HM in E. cbn [bind] in E. injection E as <- _ <-. split; reflexivity.
    + intros HX. destruct (derived running_version git cls get_mapping c bases) as [[out [names sources]] |] eqn:ED; cbn [bind] in E.
      2:{ injection E as _ _ <-. discriminate. }
      unfold derived in ED. destruct (get_mapping (a_config c) bases) as [found |]; [| discriminate]. cbn in ED. injection ED as <- ->.
      cbn [fst h_data h_subs h_conf h_untracked k_class] in E. intros ->.
      match goal with H : context [add_sub_components ?p ?c0] |- _ =>
        destruct (add_sub_components p c0) as [cf1 [e1 |]] eqn:EA; [injection H as _ _ H; discriminate |] end.
      assert (HCC : co_config cf1 = [("config"%string, a_config c); ("name"%string, name_given (a_name c))]).
      { clear - EA. revert EA. match goal with |- add_sub_components ?p ?c0 = _ -> _ => change (co_config cf1 = _) with (co_config cf1 = co_config c0); generalize c0 end.
        generalize (dupdate (start (a_trafo c)) bases) as p. induction p as [| [k x] p IH]; intros c0 H; cbn [add_sub_components] in H; [injection H as <-; reflexivity |].
        destruct (dmem _ _); [discriminate |]. destruct (k_configured x); [| discriminate]. cbn [negb] in H. destruct (conf_dict x); [| discriminate].
        rewrite (IH _ H). reflexivity. }
      destruct (add_dependent_sub_components _ cf1) as [cf2 [e2 |]] eqn:E2; [injection E as _ _ E; discriminate |].
      assert (HCC2 : co_config cf2 = co_config cf1).
      { unfold add_dependent_sub_components in E2. destruct (check_dependent_names _ _); [discriminate |]. injection E2 as <-. reflexivity. }
      destruct (check_dependent_names _ _); [injection E as _ _ E; discriminate |]. cbn [is_dict negb] in E.
      destruct (check_settings missing (co_config cf2)) eqn:ES; [injection E as _ _ E; discriminate |].
      rewrite HCC2, HCC in ES. destruct HX as [HX | HX].
      * destruct (check_settings_get _ _ _ _ ES (HG HX)) as (w & v & _ & K & _). discriminate.
      * destruct (check_settings_get _ _ _ _ ES (HN HX)) as (w & v & K0 & K & KV). cbn in K, K0. injection K as <-. injection K0 as <-. rewrite HX in KV. discriminate.
  - rewrite HC in E. injection E as <- _ <-. split; [auto |]. split; [auto |]. split; [| discriminate].
    intros e' H1 H2 _. exfalso. apply andb_false_iff in ER. destruct ER as [ER | ER].
    + destruct (a_trafo c) as [| | t] eqn:ET; try discriminate. cbn in ER. rewrite (H2 t eq_refl) in ER. discriminate.
    + rewrite (proj2 (forallb_forall _ bases)) in ER; [discriminate |]. intros [k x] HI. exact (H1 k x HI).
Qed.

(** * C163: a dictionary that is used again, and loading *)

(** Of two sources configured with the same dictionary, which has no entry for
    the transformer at first, the later one decides which transformer both use,
    and takes over the one of the first if it is given none; both have recorded
    the configuration of the first transformer. *)
Theorem C163_shared h loc c1 c2 t1 names1 sources1 names2 sources2 :
  UsableCall c1 -> UsableCall c2 -> dwf (h loc) -> (forall k x, dget k (h loc) = Some x -> Ready x) ->
  dget "data_trafo" (h loc) = None -> a_trafo c1 = Given t1 ->
  get_mapping (a_config c1) (h loc) = Ok (names1, sources1) ->
  get_mapping (a_config c2) (dset "data_trafo" t1 (h loc)) = Ok (names2, sources2) ->
  exists h1 m1 h2 m2, multi_configure h loc c1 = (h1, m1, None) /\ multi_configure h1 loc c2 = (h2, m2, None) /\
    live h1 m1 "data_trafo" = Some t1 /\
    (forall k, live h2 m1 k = live h2 m2 k) /\
    live h2 m2 "data_trafo" = Some (match a_trafo c2 with Given t2 => t2 | _ => t1 end) /\
    recorded m1 "data_trafo" = config_of t1 /\ recorded m2 "data_trafo" = config_of t1 /\
    (forall k, k <> "data_trafo"%string -> live h2 m2 k = dget k (h loc)).
Proof.
  intros U1 U2 HD HR HN ET M1 M2.
  destruct (C162_configured h loc c1 names1 sources1 U1 HD HR M1) as (h1 & m1 & E1 & _ & L1 & _ & _ & _ & _ & _ & H1 & V1 & R1).
  rewrite ET in H1. cbn [with_trafo] in H1. rewrite <- H1 in M2.
  destruct (C162_configured h1 loc c2 names2 sources2 U2) as (h2 & m2 & E2 & _ & L2 & _ & _ & _ & _ & _ & H2 & V2 & R2).
  { rewrite H1. apply dwf_dset. exact HD. }
  { intros k x HI. rewrite H1 in HI. destruct (String.eqb_spec k "data_trafo") as [-> | N].
    - rewrite dget_dset_same in HI. injection HI as <-. destruct U1 as (_ & _ & U1). rewrite ET in U1. exact U1.
    - rewrite dget_dset_other in HI by exact N. exact (HR k x HI). }
  { exact M2. }
  exists h1, m1, h2, m2. split; [exact E1 |]. split; [exact E2 |]. split; [rewrite V1, ET; reflexivity |].
  split; [intros k; unfold live; rewrite L1, L2; reflexivity |].
  split; [rewrite V2, H1, dget_dset_same; destruct (a_trafo c2); reflexivity |].
  split; [rewrite R1, HN, ET; reflexivity |]. split; [rewrite R2, H1, dget_dset_same; reflexivity |].
  intros k N. rewrite V2, H1, dget_dset_other by exact N. apply String.eqb_neq in N. rewrite N. destruct (a_trafo c2); reflexivity.
Qed.

Lemma filter_all {A} (f : A -> bool) l : (forall x, In x l -> f x = true) -> filter f l = l.
Proof. induction l as [| x l IH]; intros H; [reflexivity |]. cbn. rewrite (H x (or_introl eq_refl)). f_equal. apply IH. intros y Hy. apply H. right. exact Hy. Qed.

Lemma filter_dset {A} k (v : A) d : dget k d = None -> filter (fun kv => negb (String.eqb (fst kv) k)) (dset k v d) = d.
Proof.
  induction d as [| [k' v'] d IH]; intros H; cbn [dset filter fst].
  - rewrite eqb_spec_refl. reflexivity.
  - cbn [dget] in H. destruct (String.eqb_spec k k') as [-> | N]; [discriminate |]. cbn [filter fst].
    destruct (String.eqb_spec k' k) as [-> | _]; [congruence |]. cbn [negb]. f_equal. exact (IH H).
Qed.

(** What a saved source can be rebuilt from: if it was configured with a
    transformer and none of its base sources has that name, then with the same
    name, parameters and sources; without a transformer never. *)
Theorem C163_reload h loc c names sources : UsableCall c -> dwf (h loc) -> (forall k x, dget k (h loc) = Some x -> Ready x) ->
  get_mapping (a_config c) (h loc) = Ok (names, sources) -> dget "data_trafo" (h loc) = None ->
  exists h' m, multi_configure h loc c = (h', m, None) /\
    reload running_version git cls get_mapping false (a_config c) (m_name m) (h' loc)
    = match a_trafo c with Given _ => Ok (Some (m_name m, m_names m, m_sources m)) | _ => Err KeyError end.
Proof.
  intros HU HD HR HM HN. destruct (C162_configured h loc c names sources HU HD HR HM) as (h' & m & E & _ & L & N & S1 & NM & _ & _ & H & V & _).
  exists h', m. split; [exact E |]. unfold reload, lookup. rewrite H. rewrite with_trafo_get. cbn [String.eqb Ascii.eqb Bool.eqb].
  destruct (a_trafo c) as [| | t] eqn:ET; [rewrite HN; reflexivity | rewrite HN; reflexivity |].
  cbn [bind with_trafo]. rewrite filter_dset by exact HN. unfold derived. cbn [a_config a_name a_trafo]. rewrite HM. cbn [bind fst snd].
  rewrite N, S1. cbn. rewrite NM. destruct HU as (_ & HNm & _). destruct (a_name c) as [v |]; [| reflexivity].
  destruct v; reflexivity.
Qed.

(** Evaluating needs the transformer as well. *)
Theorem C163_evaluate tensors_of h m :
  (k_configured (m_comp m) = false -> time_exclusions tensors_of h m = Err ValueError) /\
  (k_configured (m_comp m) = true -> live h m "data_trafo" = None -> time_exclusions tensors_of h m = Err AttributeError) /\
  (forall t, k_configured (m_comp m) = true -> live h m "data_trafo" = Some t ->
     exists b, time_exclusions tensors_of h m = Ok b /\ (b = true <-> dget "x_time_exclusions" (tensors_of t) = Some true)).
Proof.
  unfold time_exclusions. repeat split.
  - intros ->. reflexivity.
  - intros -> ->. reflexivity.
  - intros t -> ->. cbn. eexists. split; [reflexivity |]. destruct (dget _ _) as [[|] |]; split; congruence.
Qed.
End Configure.

(** The models of tracks and muons refuse a dictionary that was used before. *)
Theorem C163_used_refused rest h loc c t config : dget "data_trafo" (h loc) = Some t ->
  a_config c = VDict config -> dget "num_cascades" config <> None ->
  (forall k x, In (k, x) (h loc) -> k_configured x = true) -> (forall t, a_trafo c = Given t -> k_configured t = true) ->
  forall rv git cls mp, mp = track_mapping rest \/ mp = muon_mapping rest ->
  let '(h', _, e) := multi_configure rv git cls mp h loc c in e = Some ValueError /\ h' = h.
Proof.
  intros HT HC HN H1 H2 rv git cls mp HM. pose proof (C162_refused rv git cls mp h loc c) as HR.
  destruct (multi_configure rv git cls mp h loc c) as [[h' m] e]. destruct HR as (_ & _ & HR & _). apply HR; [exact H1 | exact H2 |].
  assert (HI : In "data_trafo"%string (dkeys (h loc))) by exact (dget_Some_In_keys _ _ _ HT).
  rewrite HC. destruct HM as [-> | ->]; unfold track_mapping, muon_mapping, vget.
  - destruct (dget "num_cascades" config); [| congruence]. cbn [bind].
    destruct (list_eqb String.eqb (M_Train.ssort (dkeys (h loc))) ["cascade"; "track"]%string) eqn:E; [| reflexivity]. exfalso.
    assert (HJ : In "data_trafo"%string (M_Train.ssort (dkeys (h loc)))) by (apply L_Train.ssort_in; exact HI).
    destruct (M_Train.ssort (dkeys (h loc))) as [| a [| b [| z l]]]; cbn in E; try discriminate.
    + rewrite andb_false_r in E. discriminate.
    + apply andb_true_iff in E. destruct E as [E1 E2]. apply andb_true_iff in E2. destruct E2 as [E2 _]. apply String.eqb_eq in E1, E2. subst.
      destruct HJ as [HJ | [HJ | []]]; discriminate.
    + rewrite !andb_false_r in E. discriminate.
  - destruct (dget "num_cascades" config); [| congruence]. cbn [bind].
    destruct (list_eqb String.eqb (dkeys (h loc)) ["cascade"]%string) eqn:E; [| reflexivity]. exfalso.
    destruct (dkeys (h loc)) as [| a [| b l]]; cbn in E; try discriminate.
    + rewrite andb_true_r in E. apply String.eqb_eq in E. subst. destruct HI as [HI | []]; discriminate.
    + rewrite andb_false_r in E. discriminate.
Qed.

(** * C164: the check of the parameters *)

(** The check passes exactly if every source is fine, and otherwise raises what
    the first source that is not fine calls for. *)
Theorem C164_accepted eager consts input subs params sources : (forall i x, In x (consts i) -> ~ Depends input x) ->
  (check_sources eager consts input subs params sources = None <-> forall s, In s sources -> Fine eager input subs params s).
Proof.
  intros HC. induction sources as [| [name base] sources IH]; [split; [intros _ s [] | reflexivity] |].
  destruct (check_one consts input HC eager subs params name base sources) as [[HF E] | (e & HW & E)]; rewrite E.
  - rewrite IH. split; [intros H s [<- | HI]; [exact HF | exact (H s HI)] | intros H s HI; apply H; right; exact HI].
  - split; [discriminate |]. intros H. exfalso. exact (fine_not_wrong _ _ _ _ _ _ (H _ (or_introl eq_refl)) HW).
Qed.

Theorem C164_raises eager consts input subs params sources e : (forall i x, In x (consts i) -> ~ Depends input x) ->
  (check_sources eager consts input subs params sources = Some e <->
   exists l1 s l2, sources = l1 ++ s :: l2 /\ (forall s', In s' l1 -> Fine eager input subs params s') /\ Wrong eager input subs params s e).
Proof.
  intros HC. induction sources as [| [name base] sources IH].
  - split; [discriminate |]. intros ([| ? ?] & ? & ? & H & _); discriminate.
  - destruct (check_one consts input HC eager subs params name base sources) as [[HF E] | (e' & HW & E)]; rewrite E.
    + rewrite IH. split.
      * intros (l1 & s & l2 & -> & H1 & H2). exists ((name, base) :: l1), s, l2. split; [reflexivity |]. split; [| exact H2].
        intros s' [<- | HI]; [exact HF | exact (H1 s' HI)].
      * intros ([| x l1] & s & l2 & EL & H1 & H2); injection EL as <- ->.
        -- exfalso. exact (fine_not_wrong _ _ _ _ _ _ HF H2).
        -- exists l1, s, l2. split; [reflexivity |]. split; [| exact H2]. intros s' HI. apply H1. right. exact HI.
    + split.
      * intros H. injection H as <-. exists [], (name, base), sources. split; [reflexivity |]. split; [intros s' [] | exact HW].
      * intros ([| x l1] & s & l2 & EL & H1 & H2); injection EL as <- ->.
        -- f_equal. destruct HW as [[A ->] | [(A & A' & ->) | (n & k & t & A & A' & -> & _)]];
             destruct H2 as [[B ->] | [(B & B' & ->) | (n' & k' & t' & B & B' & -> & _)]]; congruence.
        -- exfalso. exact (fine_not_wrong _ _ _ _ _ _ (H1 _ (or_introl eq_refl)) HW).
Qed.

(** Whatever else the tensor of a source is made of: as soon as one of its
    parts depends on the input, the rest may be constant or come from elsewhere. *)
Theorem C164_other_parts consts input subs params name base n k parts :
  (forall i x, In x (consts i) -> ~ Depends input x) -> dget base subs = Some n ->
  dget name params = Some (n, Node k "Pack" parts) -> (exists x, In x parts /\ Depends input x) ->
  check_sources false consts input subs params [(name, base)] = None.
Proof.
  intros HC HS HP (x & HI & HX). apply C164_accepted; [exact HC |]. intros s [<- | []]. exists n, (Node k "Pack" parts).
  split; [exact HS |]. split; [exact HP |]. right. right. exact (dep_input _ _ _ _ x HI HX).
Qed.

(** * Cases *)

Definition ex_conf (cls : string) (settings : dict value) : conf := mkConf (mkConfig "1" VNone cls [] settings [] [] [] []) settings.
Definition ex_comp (cls : string) (settings : dict value) : component := mkComp cls [] true (Some (ex_conf cls settings)) (VDict []) [].
Definition ex_names (c : component) : list string :=
  if String.eqb (k_class c) "one" then ["b_c"; "x"]%string else ["c"; "y"]%string.
Definition ex_t1 := ex_comp "trafo" [("n"%string, VInt 1)].
Definition ex_t2 := ex_comp "trafo" [("n"%string, VInt 2)].
Definition ex_bases : dict component := [("one"%string, ex_comp "one" []); ("two"%string, ex_comp "two" [])].
Definition ex_heap : heap := fun _ => ex_bases.
Definition ex_config (a b : string) : value := VDict [("sources"%string, VDict [(a, VStr "one"); (b, VStr "two")])].
Definition ex_call (t : targ) : call := {| a_config := ex_config "p" "q"; a_trafo := t; a_name := Some (VStr "model") |}.

Example multi_ex_names : independent_mapping ex_names (ex_config "p" "q") ex_bases
  = Ok (["p_b_c"; "p_x"; "q_c"; "q_y"], [("p", "one"); ("q", "two")])%string.
Proof. reflexivity. Qed.

Example multi_ex_duplicates : let s := {| n_configured := true; n_names := Some ["x"; "y"; "x"]%string |} in
  get_index s "x" = Ok 2 /\ get_name s 0 = Ok "x"%string /\ get_name s (-1) = Err KeyError /\
  params_of s [10; 20; 30] = Ok [("x", 30); ("y", 20)]%string.
Proof. repeat split. Qed.

Lemma ex_wf a b : a <> b -> vwf (ex_config a b).
Proof.
  intros N. apply vwf_dict; [repeat constructor; intros [] |]. repeat constructor; cbn; try (intros [H | []]; congruence); try (intros []).
Qed.

Example multi_ex_usable : UsableCall (ex_call (Given ex_t1)) /\ UsableCall (ex_call Omitted) /\ dwf ex_bases /\
  (forall k x, dget k ex_bases = Some x -> Ready x).
Proof.
  split; [| split; [| split]].
  - split; [apply ex_wf; discriminate |]. split; [split; [discriminate | constructor] |]. split; [reflexivity | discriminate].
  - split; [apply ex_wf; discriminate |]. split; [split; [discriminate | constructor] | exact I].
  - repeat constructor; cbn; intuition discriminate.
  - intros k x H. apply dget_In in H. destruct H as [H | [H | []]]; injection H as <- <-; split; [reflexivity | discriminate | reflexivity | discriminate].
Qed.

Example multi_ex_apart : Apart ["p"; "q"]%string.
Proof. intros c d s [<- | [<- | []]] [<- | [<- | []]]; discriminate. Qed.

(** Sources whose names make the names of their parameters ambiguous: the value
    found under the name of the first source and its parameter belongs to the
    other one. *)
Theorem C161_ambiguous_refuted : exists config bases names sources (columns : list nat) d blocks,
  vwf config /\ independent_mapping ex_names config bases = Ok (names, sources) /\ ~ NoDup names /\
  indexer names columns = Ok d /\ independent_split ex_names bases sources columns = Ok blocks /\
  dget "a" blocks = Some [1; 2] /\ nth_error (ex_names (ex_comp "one" [])) 0 = Some "b_c"%string /\
  dget "one" bases = Some (ex_comp "one" []) /\ dget ("a" ++ "_" ++ "b_c")%string d = Some 3.
Proof.
  exists (ex_config "a" "a_b"), ex_bases, ["a_b_c"; "a_x"; "a_b_c"; "a_b_y"]%string, [("a", "one"); ("a_b", "two")]%string, [1; 2; 3; 4].
  eexists _, _. split; [apply ex_wf; discriminate |]. split; [reflexivity |]. split.
  { intros H. inversion H as [| ? ? H1 _]; subst. apply H1. right. left. reflexivity. }
  split; [reflexivity |]. split; [reflexivity |]. repeat split.
Qed.

(** A source does not keep the transformer it was configured with, and a source
    configured without one may have one. *)
Theorem C163_own_transformer_refuted : exists h loc c1 c2 c3 h1 m1 h2 m2 h3 m3,
  a_trafo c1 = Given ex_t1 /\ a_trafo c2 = Given ex_t2 /\ a_trafo c3 = Omitted /\
  let conf := multi_configure "1" VNone "multi" (independent_mapping ex_names) in
  conf h loc c1 = (h1, m1, None) /\ conf h1 loc c2 = (h2, m2, None) /\ conf h2 loc c3 = (h3, m3, None) /\
  live h1 m1 "data_trafo" = Some ex_t1 /\ live h2 m1 "data_trafo" = Some ex_t2 /\
  recorded m2 "data_trafo" = config_of ex_t1 /\ live h3 m3 "data_trafo" = Some ex_t2 /\ config_of ex_t1 <> config_of ex_t2.
Proof.
  exists ex_heap, 0, (ex_call (Given ex_t1)), (ex_call (Given ex_t2)), (ex_call Omitted).
  eexists _, _, _, _, _, _. cbn zeta. repeat (split; [vm_compute; reflexivity |]). vm_compute. discriminate.
Qed.

(** A source configured without a transformer can not be loaded again. *)
Theorem C163_loadable_refuted : exists h loc c h' m, UsableCall c /\
  multi_configure "1" VNone "multi" (independent_mapping ex_names) h loc c = (h', m, None) /\
  reload "1" VNone "multi" (independent_mapping ex_names) false (a_config c) (m_name m) (h' loc) = Err KeyError.
Proof.
  exists ex_heap, 0, (ex_call Omitted). eexists _, _. split; [apply multi_ex_usable |]. split; vm_compute; reflexivity.
Qed.

(** Of a base source named like the transformer only the transformer is left. *)
Theorem C163_base_lost_refuted : exists h loc c b names sources h' m, UsableCall c /\ dget "data_trafo" (h loc) = Some b /\
  independent_mapping ex_names (a_config c) (h loc) = Ok (names, sources) /\ sources = [("p", "data_trafo")]%string /\
  multi_configure "1" VNone "multi" (independent_mapping ex_names) h loc c = (h', m, None) /\
  live h' m "data_trafo" = Some ex_t1 /\ recorded m "data_trafo" = config_of b /\ config_of b <> config_of ex_t1.
Proof.
  exists (fun _ => [("data_trafo"%string, ex_comp "one" [])]), 0,
    {| a_config := VDict [("sources"%string, VDict [("p"%string, VStr "data_trafo")])]; a_trafo := Given ex_t1; a_name := None |}, (ex_comp "one" []).
  eexists _, _, _, _. split.
  { split; [repeat constructor; cbn; intros [] |]. split; [exact I |]. split; [reflexivity | discriminate]. }
  repeat (split; [vm_compute; reflexivity |]). vm_compute. discriminate.
Qed.

(** A source one of whose parameters is a constant and another one of which is
    read from a variable passes the check. *)
Definition ex_input := "MultiSourceInput:0"%string.
Definition ex_tensor : node :=
  Node "stack" "Pack" [Node "s" "StridedSlice" [Node ex_input "Const" []]; Node "one" "Const" []; Node "v" "ReadVariableOp" [Node "handle" "VarHandleOp" []]].
Theorem C164_constant_refuted : exists t parts consts,
  t = Node "stack" "Pack" parts /\ length parts = 3 /\ (exists x, nth_error parts 1 = Some x /\ ~ Depends ex_input x) /\
  (exists x, nth_error parts 2 = Some x /\ ~ Depends ex_input x) /\ (forall i x, In x (consts i) -> ~ Depends ex_input x) /\
  check_sources false consts ex_input [("base"%string, 3)] [("source"%string, (3, t))] [("source", "base")]%string = None.
Proof.
  exists ex_tensor, [Node "s" "StridedSlice" [Node ex_input "Const" []]; Node "one" "Const" []; Node "v" "ReadVariableOp" [Node "handle" "VarHandleOp" []]],
    (fun _ => [Node "begin" "Const" []]).
  split; [reflexivity |]. split; [reflexivity |].
  split; [eexists; split; [reflexivity |]; rewrite <- top_depends; intros [] |].
  split; [eexists; split; [reflexivity |]; rewrite <- top_depends; intros [] |].
  split; [intros i x [<- | []]; rewrite <- top_depends; intros [] | reflexivity].
Qed.

Example multi_ex_check_fails : check_sources false (fun _ => []) ex_input [("base"%string, 1)]
  [("source"%string, (1, Node "one" "Const" []))] [("source", "base")]%string = Some ValueError.
Proof. reflexivity. Qed.

Example multi_ex_used : dget "data_trafo" (dset "data_trafo" ex_t1 [("cascade"%string, ex_comp "one" [])]) = Some ex_t1 /\
  dget "num_cascades" [("num_cascades"%string, VInt 3)] <> None.
Proof. split; [reflexivity | discriminate]. Qed.
Print Assumptions C160_index.
Print Assumptions C160_name.
Print Assumptions C160_round_trip.
Print Assumptions C160_columns.
Print Assumptions C160_unconfigured.
Print Assumptions C161_unique.
Print Assumptions C161_by_name.
Print Assumptions C162_configured.
Print Assumptions C162_refused.
Print Assumptions C163_shared.
Print Assumptions C163_reload.
Print Assumptions C163_evaluate.
Print Assumptions C163_used_refused.
Print Assumptions C164_accepted.
Print Assumptions C164_raises.
Print Assumptions C164_other_parts.
Print Assumptions C161_ambiguous_refuted.
Print Assumptions C163_own_transformer_refuted.
Print Assumptions C163_loadable_refuted.
Print Assumptions C163_base_lost_refuted.
Print Assumptions C164_constant_refuted.
