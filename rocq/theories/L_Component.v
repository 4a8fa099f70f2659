(** Proofs about components: configure, save. *)
From Verif Require Import Py PyFacts PyStr PyStrFacts M_Config S_Config L_Config M_Component S_Component.

Definition component_ind' (P : component -> Prop)
  (H : forall cls unt b cf data subs,
      Forall (fun s => P (snd s)) subs ->
      P (mkComp cls unt b cf data subs)) : forall c, P c :=
  fix F (c : component) : P c :=
    match c with
    | mkComp cls unt b cf data subs =>
        H cls unt b cf data subs
          ((fix G (l : list (string * component)) : Forall (fun s => P (snd s)) l :=
              match l with
              | [] => Forall_nil _
              | s :: l' => Forall_cons _ (F (snd s)) (G l')
              end) subs)
    end.

(** ** configure *)

Lemma configure_err h kw c c' e : configure h kw c = (c', Some e) ->
  (k_configured c = true /\ c' = c /\ e = ValueError) \/
  (k_configured c = false /\ k_configured c' = false).
Proof.
  unfold configure. destruct (k_configured c) eqn:Ec.
  - intros H; inversion H; subst; auto.
  - intros H. right. split; [reflexivity|].
    destruct (negb _); [inversion H; subst; exact Ec|].
    destruct (collect kw [] []) as [[ms ps]|]; [|inversion H; subst; exact Ec].
    destruct (h kw) as [out|]; [|inversion H; subst; exact Ec].
    destruct (h_subs out).
    all: try (inversion H; subst; reflexivity).
    all: destruct (add_sub_components _ _) as [cf1 [e1|]]; [inversion H; subst; reflexivity|].
    all: destruct (add_dependent_sub_components _ _) as [cf2 [e2|]]; [inversion H; subst; reflexivity|].
    all: destruct (check_dependent_names _ _); [inversion H; subst; reflexivity|].
    all: destruct (negb (is_dict _)); [inversion H; subst; reflexivity|].
    all: destruct (check_settings _ _); inversion H; subst; reflexivity.
Qed.

Lemma configure_configured h kw c : k_configured c = true -> configure h kw c = (c, Some ValueError).
Proof. intros H. unfold configure. rewrite H. reflexivity. Qed.

(** Inversion of a successful configure. *)
Lemma configure_ok h kw c c' : configure h kw c = (c', None) ->
  k_configured c = false /\ k_untracked c = [] /\
  exists missing params out cf1 subs,
    collect kw [] [] = Ok (missing, params) /\ h kw = Ok out /\
    (h_subs out = HNone /\ subs = [] \/ h_subs out = HDict subs) /\
    add_sub_components params (h_conf out) = (cf1, None) /\
    check_dependent_names (dkeys subs) (co_dict cf1) = None /\
    is_dict (match h_data out with VNone => VDict [] | v => v end) = true /\
    check_settings missing (co_config cf1) = None /\
    c' = mkComp (k_class c) (h_untracked out) true
           (Some (mkConf (set_dep (c_dep (co_dict cf1) ++ dkeys subs) (co_dict cf1)) (co_config cf1)))
           (match h_data out with VNone => VDict [] | v => v end) subs.
Proof.
  unfold configure. destruct (k_configured c) eqn:Ec; [intros H; inversion H|].
  destruct (k_untracked c) as [|u us] eqn:Eu; cbn [length Nat.eqb negb]; [|intros H; inversion H].
  destruct (collect kw [] []) as [[ms ps]|] eqn:Ecol; [|intros H; inversion H].
  destruct (h kw) as [out|] eqn:Eh; [|intros H; inversion H].
  intros H. split; [reflexivity|split; [reflexivity|]].
  assert (Hgen : forall subs, (h_subs out = HNone /\ subs = [] \/ h_subs out = HDict subs) ->
    (let (cf1, e1) := add_sub_components ps (h_conf out) in
     match e1 with
     | Some e => (mkComp (k_class c) (h_untracked out) false (Some cf1) (match h_data out with VNone => VDict [] | v => v end) subs, Some e)
     | None =>
       let (cf2, e2) := add_dependent_sub_components (dkeys subs) cf1 in
       match e2 with
       | Some e => (mkComp (k_class c) (h_untracked out) false (Some cf2) (match h_data out with VNone => VDict [] | v => v end) subs, Some e)
       | None =>
         match check_dependent_names (c_mut_subs (co_dict cf2)) (co_dict cf2) with
         | Some e => (mkComp (k_class c) (h_untracked out) false (Some cf2) (match h_data out with VNone => VDict [] | v => v end) subs, Some e)
         | None =>
           if negb (is_dict (match h_data out with VNone => VDict [] | v => v end))
           then (mkComp (k_class c) (h_untracked out) false (Some cf2) (match h_data out with VNone => VDict [] | v => v end) subs, Some TypeError)
           else match check_settings ms (co_config cf2) with
                | Some e => (mkComp (k_class c) (h_untracked out) false (Some cf2) (match h_data out with VNone => VDict [] | v => v end) subs, Some e)
                | None => (mkComp (k_class c) (h_untracked out) true (Some cf2) (match h_data out with VNone => VDict [] | v => v end) subs, None)
                end
         end
       end
     end) = (c', None) ->
    exists missing params out0 cf1 subs0,
    Ok (ms, ps) = Ok (missing, params) /\ Ok out = Ok out0 /\
    (h_subs out0 = HNone /\ subs0 = [] \/ h_subs out0 = HDict subs0) /\
    add_sub_components params (h_conf out0) = (cf1, None) /\
    check_dependent_names (dkeys subs0) (co_dict cf1) = None /\
    is_dict (match h_data out0 with VNone => VDict [] | v => v end) = true /\
    check_settings missing (co_config cf1) = None /\
    c' = mkComp (k_class c) (h_untracked out0) true
           (Some (mkConf (set_dep (c_dep (co_dict cf1) ++ dkeys subs0) (co_dict cf1)) (co_config cf1)))
           (match h_data out0 with VNone => VDict [] | v => v end) subs0).
  { intros subs Hsubs H0. destruct (add_sub_components ps (h_conf out)) as [cf1 [e1|]] eqn:E1; [inversion H0|].
    unfold add_dependent_sub_components in H0.
    destruct (check_dependent_names (dkeys subs) (co_dict cf1)) eqn:E2; [inversion H0|].
    destruct (check_dependent_names (c_mut_subs _) _) eqn:E3; [inversion H0|].
    destruct (is_dict _) eqn:E4; cbn [negb] in H0; [|inversion H0].
    destruct (check_settings _ _) eqn:E5; [inversion H0|]. inversion H0; subst c'.
    exists ms, ps, out, cf1, subs. repeat (split; [assumption || reflexivity|]). reflexivity. }
  destruct (h_subs out) eqn:Es; [apply (Hgen []); auto|apply (Hgen d); auto|inversion H].
Qed.

(** ** Collected arguments *)

(** All components passed, in order of processing, with their names. *)
Definition item_occ (items : list (string * item)) : list (string * component) :=
  flat_map (fun ni => match snd ni with IComp c => [(fst ni, c)] | IVal _ => [] end) items.
Definition arg_occ (key : string) (a : arg) : list (string * component) :=
  match a with
  | AComp c => [(key, c)]
  | AScalar _ => []
  | ADict items => item_occ items
  | ASeq _ l => item_occ (seq_names key 0 l)
  end.
Definition occ (kw : dict arg) : list (string * component) :=
  flat_map (fun ka => arg_occ (fst ka) (snd ka)) kw.

Lemma collect_items_spec items params all params' :
  collect_items items params = Ok (all, params') ->
  params' = dupdate params (item_occ items) /\
  (all = true <-> forall n v, ~ In (n, IVal v) items) /\
  Forall (fun nc => k_configured (snd nc) = true) (item_occ items).
Proof.
  revert params all params'. induction items as [|[n [c|v]] items IH]; simpl; intros params all params' H.
  - inversion H; subst. repeat split; auto.
  - destruct (k_configured c) eqn:Ec; [|discriminate]. apply IH in H. destruct H as [H1 [H2 H3]].
    split; [exact H1|]. split.
    + rewrite H2. split.
      * intros Hn n' v' [Heq|Hin]; [inversion Heq|exact (Hn _ _ Hin)].
      * intros Hn n' v' Hin. exact (Hn n' v' (or_intror Hin)).
    + constructor; auto.
  - destruct (collect_items items params) as [[a p]|] eqn:E; [|discriminate]. inversion H; subst.
    destruct (IH _ _ _ E) as [H1 [H2 H3]]. split; [exact H1|]. split; [|exact H3].
    split; [discriminate|]. intros Hn. exfalso. exact (Hn n v (or_introl eq_refl)).
Qed.

Lemma dupdate_app {A} (d e f : dict A) : dupdate d (e ++ f) = dupdate (dupdate d e) f.
Proof. unfold dupdate. apply fold_left_app. Qed.

Lemma seq_names_In key i l n x : In (n, x) (seq_names key i l) <->
  exists j, nth_error l j = Some x /\ n = (key ++ "_" ++ fmt04 (i + j))%string.
Proof.
  revert i. induction l as [|y l IH]; intros i; simpl.
  - split; [intros []|]. intros [j [H _]]. destruct j; discriminate.
  - rewrite IH. split.
    + intros [Heq|[j [Hj ->]]].
      * inversion Heq; subst. exists 0. split; [reflexivity|]. rewrite Nat.add_0_r. reflexivity.
      * exists (S j). split; [exact Hj|]. rewrite Nat.add_succ_r. reflexivity.
    + intros [[|j] [Hj ->]].
      * left. inversion Hj; subst. rewrite Nat.add_0_r. reflexivity.
      * right. exists j. split; [exact Hj|]. rewrite Nat.add_succ_r. reflexivity.
Qed.

Lemma Plain_dict_iff items : (exists n v, In (n, IVal v) items) <-> Plain (ADict items).
Proof.
  split.
  - intros (n & v & H). econstructor; eauto.
  - intros H; inversion H; subst. eauto.
Qed.

Lemma Plain_seq_iff key t l : (exists n v, In (n, IVal v) (seq_names key 0 l)) <-> Plain (ASeq t l).
Proof.
  split.
  - intros (n & v & H). apply seq_names_In in H. destruct H as [j [Hj _]]. apply nth_error_In in Hj. econstructor; eauto.
  - intros H; inversion H as [| |? ? v Hin]; subst. apply In_nth_error in Hin. destruct Hin as [j Hj].
    exists (key ++ "_" ++ fmt04 j)%string, v. apply seq_names_In. exists j. split; [exact Hj|reflexivity].
Qed.

Lemma collect_spec kw : forall missing params missing' params',
  collect kw missing params = Ok (missing', params') ->
  NoDup (dkeys kw) ->
  params' = dupdate params (occ kw) /\
  Forall (fun nc => k_configured (snd nc) = true) (occ kw) /\
  (forall k a, In (k, a) kw -> Plain a -> dget k missing' = Some a) /\
  (forall k, ~ In k (dkeys kw) -> dget k missing' = dget k missing).
Proof.
  induction kw as [|[key a] kw IH]; intros missing params missing' params' H Hnd.
  - simpl in H. inversion H; subst. simpl. repeat split; auto. intros k a [].
  - inversion Hnd as [|? ? Hni Hnd']; subst.
    assert (Hcase : exists all params1 , params1 = dupdate params (arg_occ key a) /\
       (all = false <-> Plain a) /\
       Forall (fun nc => k_configured (snd nc) = true) (arg_occ key a) /\
       collect kw (if all then missing else dset key a missing) params1 = Ok (missing', params')).
    { simpl in H. destruct a as [c|v|items|t l].
      - destruct (k_configured c) eqn:Ec; [|discriminate]. exists true, (dset key c params).
        split; [reflexivity|]. split; [split; [discriminate|intros HP; inversion HP]|].
        split; [repeat constructor; exact Ec|exact H].
      - exists false, params. split; [reflexivity|]. split; [split; [intros _; constructor|reflexivity]|].
        split; [constructor|exact H].
      - destruct (collect_items items params) as [[all p1]|] eqn:E; [|discriminate].
        apply collect_items_spec in E. destruct E as [E1 [E2 E3]]. exists all, p1.
        split; [exact E1|]. split; [|split; [exact E3|exact H]].
        rewrite <- Plain_dict_iff. destruct all.
        + split; [discriminate|]. intros (n & v & Hin). exfalso. exact (proj1 E2 eq_refl n v Hin).
        + split; [|reflexivity]. intros _.
          assert (Hex : existsb (fun ni => match snd ni with IVal _ => true | _ => false end) items = true).
          { destruct (existsb _ items) eqn:Ex; [reflexivity|]. exfalso.
            assert (false = true); [|discriminate]. apply E2. intros n v Hin.
            assert (existsb (fun ni => match snd ni with IVal _ => true | _ => false end) items = true).
            { apply existsb_exists. exists (n, IVal v). split; [exact Hin|reflexivity]. }
            congruence. }
          apply existsb_exists in Hex. destruct Hex as [[n [c|v]] [Hin Hv]]; [discriminate|eauto].
      - destruct (collect_items (seq_names key 0 l) params) as [[all p1]|] eqn:E; [|discriminate].
        apply collect_items_spec in E. destruct E as [E1 [E2 E3]]. exists all, p1.
        split; [exact E1|]. split; [|split; [exact E3|exact H]].
        rewrite <- (Plain_seq_iff key t l). destruct all.
        + split; [discriminate|]. intros (n & v & Hin). exfalso. exact (proj1 E2 eq_refl n v Hin).
        + split; [|reflexivity]. intros _. set (items := seq_names key 0 l) in *.
          assert (Hex : existsb (fun ni => match snd ni with IVal _ => true | _ => false end) items = true).
          { destruct (existsb _ items) eqn:Ex; [reflexivity|]. exfalso.
            assert (false = true); [|discriminate]. apply E2. intros n v Hin.
            assert (existsb (fun ni => match snd ni with IVal _ => true | _ => false end) items = true).
            { apply existsb_exists. exists (n, IVal v). split; [exact Hin|reflexivity]. }
            congruence. }
          apply existsb_exists in Hex. destruct Hex as [[n [c|v]] [Hin Hv]]; [discriminate|eauto]. }
    destruct Hcase as (all & p1 & Hp1 & Hall & Hconf & Hcol).
    destruct (IH _ _ _ _ Hcol Hnd') as [I1 [I2 [I3 I4]]].
    split; [|split; [|split]].
    + rewrite I1, Hp1. symmetry. apply dupdate_app.
    + apply Forall_app. split; assumption.
    + intros k a' [Heq|Hin] HP.
      * inversion Heq; subst. rewrite I4 by exact Hni. apply Hall in HP. subst all. apply dget_dset_same.
      * eauto.
    + intros k Hk. rewrite I4; [|intros Hin; apply Hk; right; exact Hin].
      destruct all; [reflexivity|]. apply dget_dset_other. intros ->. apply Hk. left. reflexivity.
Qed.

Lemma item_occ_In items n c : In (n, c) (item_occ items) <-> In (n, IComp c) items.
Proof.
  unfold item_occ. rewrite in_flat_map. split.
  - intros [[m [x|v]] [Hin H]]; simpl in H; [|destruct H]. destruct H as [H|[]]. inversion H; subst; exact Hin.
  - intros H. exists (n, IComp c). split; [exact H|left; reflexivity].
Qed.

Lemma arg_occ_In key a n c : In (n, c) (arg_occ key a) <-> PassedAs key a n c.
Proof.
  destruct a as [x|v|items|t l]; simpl.
  - split.
    + intros [H|[]]; inversion H; subst. constructor.
    + intros H; inversion H; subst. left; reflexivity.
  - split; [intros []|intros H; inversion H].
  - rewrite item_occ_In. split; [intros H; constructor; exact H|intros H; inversion H; subst; assumption].
  - rewrite item_occ_In, seq_names_In. split.
    + intros [j [Hj ->]]. constructor. exact Hj.
    + intros H; inversion H; subst. eauto.
Qed.

Lemma occ_In kw n c : In (n, c) (occ kw) <-> exists k a, In (k, a) kw /\ PassedAs k a n c.
Proof.
  unfold occ. rewrite in_flat_map. split.
  - intros [[k a] [Hin H]]. simpl in H. apply arg_occ_In in H. eauto.
  - intros (k & a & Hin & H). exists (k, a). split; [exact Hin|]. apply arg_occ_In. exact H.
Qed.

(** ** Recording sub-component configurations *)

Lemma add_sub_components_spec subs : forall cf cf', NoDup (dkeys subs) ->
  add_sub_components subs cf = (cf', None) ->
  co_config cf' = co_config cf /\
  c_settings (co_dict cf') = c_settings (co_dict cf) /\
  c_mutable (co_dict cf') = c_mutable (co_dict cf) /\
  c_class (co_dict cf') = c_class (co_dict cf) /\
  c_version (co_dict cf') = c_version (co_dict cf) /\
  c_dep (co_dict cf') = c_dep (co_dict cf) /\
  c_mut_subs (co_dict cf') = c_mut_subs (co_dict cf) /\
  c_check (co_dict cf') = c_check (co_dict cf) /\ c_git (co_dict cf') = c_git (co_dict cf) /\
  (forall n c, In (n, c) subs -> dmem n (c_subs (co_dict cf)) = false /\
     exists d, conf_dict c = Ok d /\ dget n (c_subs (co_dict cf')) = Some d) /\
  (forall n, ~ In n (dkeys subs) -> dget n (c_subs (co_dict cf')) = dget n (c_subs (co_dict cf))).
Proof.
  induction subs as [|[n c] subs IH]; intros cf cf' Hnd H; simpl in H.
  - inversion H; subst. repeat (split; [reflexivity|]). split; [intros ? ? []|auto].
  - inversion Hnd as [|? ? Hni Hnd']; subst.
    destruct (dmem n (c_subs (co_dict cf))) eqn:Em; [discriminate|].
    destruct (k_configured c); simpl in H; [|discriminate].
    destruct (conf_dict c) as [d|] eqn:Ed; [|discriminate].
    apply IH in H; [|exact Hnd']. simpl in H.
    destruct H as (H1 & H2 & H3 & H4 & H5 & H6 & H7 & H8 & H8' & H9 & H10).
    do 9 (split; [assumption|]). split.
    + intros m c' [Heq|Hin].
      * inversion Heq; subst. split; [exact Em|]. exists d. split; [exact Ed|].
        rewrite H10 by exact Hni. apply dget_dset_same.
      * destruct (H9 _ _ Hin) as [Hm Hd]. split; [|exact Hd].
        unfold dmem in *. rewrite dget_dset_other in Hm; [exact Hm|].
        intros ->. apply Hni. apply (in_map fst) in Hin. exact Hin.
    + intros m Hm. rewrite H10; [|intros Hin; apply Hm; right; exact Hin].
      apply dget_dset_other. intros ->. apply Hm. left. reflexivity.
Qed.

Lemma check_settings_spec missing config : check_settings missing config = None ->
  forall k a, In (k, a) missing -> exists w v, arg_value a = Some w /\ dget k config = Some v /\ veqb w v = true.
Proof.
  induction missing as [|[key a] missing IH]; simpl; intros H k a' Hin; [destruct Hin|].
  destruct (dget key config) as [v|] eqn:Ev; [|discriminate].
  destruct (arg_value a) as [w|] eqn:Ew; [|discriminate].
  destruct (veqb w v) eqn:Eq; [|discriminate].
  destruct Hin as [Heq|Hin]; [|eauto]. inversion Heq; subst. eauto.
Qed.

Lemma item_values_spec l vs : item_values l = Some vs -> l = map IVal vs.
Proof.
  revert vs. induction l as [|[c|v] l IH]; simpl; intros vs H; try discriminate.
  - inversion H; reflexivity.
  - destruct (item_values l) as [vs'|]; [|discriminate]. inversion H; subst. simpl. f_equal. apply IH. reflexivity.
Qed.

Lemma arg_value_spec a v : arg_value a = Some v -> HasValue a v.
Proof.
  destruct a as [c|w|items|t l]; simpl; intros H.
  - discriminate.
  - inversion H; constructor.
  - destruct (item_values (map snd items)) as [vs|] eqn:E; [|discriminate]. inversion H; subst. clear H.
    apply item_values_spec in E.
    assert (Heq : items = map (fun kv => (fst kv, IVal (snd kv))) (combine (map fst items) vs)).
    { revert vs E. induction items as [|[k it] items IH]; intros [|v vs] E; simpl in *; try discriminate; [reflexivity|].
      inversion E; subst. f_equal. apply IH. assumption. }
    rewrite Heq at 1. constructor.
  - destruct (item_values l) as [vs|] eqn:E; [|discriminate]. inversion H; subst.
    apply item_values_spec in E. subst. destruct t; constructor.
Qed.

(** ** save *)

Fixpoint save_subs (overwrite allow : bool) (d : path) (l : list (string * component)) (fs : fsys)
  : list op * fsys * option exn :=
  match l with
  | [] => ([], fs, None)
  | (name, s) :: rest =>
      let '(ops1, fs1, e1) := save overwrite allow s (d ++ [name]) fs in
      match e1 with
      | Some e => (ops1, fs1, Some e)
      | None => let '(ops2, fs2, e2) := save_subs overwrite allow d rest fs1 in
                (ops1 ++ ops2, fs2, e2)
      end
  end.

Lemma save_unfold ov al c p fs : save ov al c p fs =
  if negb (k_configured c) then ([], fs, Some ValueError)
  else if negb al && negb (Nat.eqb (length (k_untracked c)) 0)
  then ([], fs, Some AttributeError)
  else
    let d := splitext_path p in
    if (fs_exists fs d FConf || fs_exists fs d FData) && negb ov
    then ([], fs, Some IOError)
    else
      match k_conf c with
      | None => ([], fs, Some AttributeError)
      | Some cf =>
          let o1 := mkOp d FConf (CConf (co_dict cf)) in
          let o2 := mkOp d FData (CData (k_data c)) in
          let '(ops, fs', e) := save_subs ov al d (k_subs c) (apply_op o2 (apply_op o1 fs)) in
          (o1 :: o2 :: ops, fs', e)
      end.
Proof.
  destruct c as [cls unt b cf data subs]. cbn [save k_configured k_untracked k_conf k_data k_subs].
  destruct (negb b); [reflexivity|]. destruct (negb al && _); [reflexivity|]. cbv zeta.
  destruct ((fs_exists fs (splitext_path p) FConf || _) && negb ov); [reflexivity|].
  destruct cf as [cf|]; [|reflexivity].
  set (fs0 := apply_op _ _). clearbody fs0.
  assert (H : (fix go (l : list (string * component)) (fs : fsys) : list op * fsys * option exn :=
               match l with
               | [] => ([], fs, None)
               | (name, s) :: rest =>
                   let '(ops1, fs1, e1) := save ov al s (splitext_path p ++ [name]) fs in
                   match e1 with
                   | Some e => (ops1, fs1, Some e)
                   | None =>
                       let '(ops2, fs2, e2) := go rest fs1 in
                       (ops1 ++ ops2, fs2, e2)
                   end
               end) subs fs0 = save_subs ov al (splitext_path p) subs fs0).
  { revert fs0. induction subs as [|[n s] subs IH]; intros fs0; cbn [save_subs]; [reflexivity|].
    destruct (save ov al s (splitext_path p ++ [n]) fs0) as [[ops1 fs1] [e|]]; [reflexivity|].
    rewrite IH. reflexivity. }
  rewrite H. reflexivity.
Qed.

Definition run_ops (ops : list op) (fs : fsys) : fsys := fold_left (fun f o => apply_op o f) ops fs.

Lemma run_ops_app a b fs : run_ops (a ++ b) fs = run_ops b (run_ops a fs).
Proof. apply fold_left_app. Qed.

Lemma list_eqb_string_eq (p q : list string) : list_eqb String.eqb p q = true <-> p = q.
Proof.
  revert q. induction p as [|x p IH]; intros [|y q]; simpl; split; intros H; try discriminate; try reflexivity.
  - apply andb_true_iff in H. destruct H as [H1 H2]. apply String.eqb_eq in H1. apply IH in H2. congruence.
  - inversion H; subst. rewrite String.eqb_refl. simpl. apply IH. reflexivity.
Qed.

Lemma path_eqb_eq p q : path_eqb p q = true <-> p = q.
Proof. apply list_eqb_string_eq. Qed.

Lemma path_eqb_neq p q : p <> q -> path_eqb p q = false.
Proof. intros H. destruct (path_eqb p q) eqn:E; [|reflexivity]. apply path_eqb_eq in E. contradiction. Qed.

Lemma fs_write_other p f x fs q g : p <> q -> fs_write p f x fs q g = fs q g.
Proof. intros H. unfold fs_write. rewrite path_eqb_neq by exact H. reflexivity. Qed.

Lemma fs_write_same p f x fs : fs_write p f x fs p f = Some x.
Proof. unfold fs_write. rewrite (proj2 (path_eqb_eq p p) eq_refl). destruct f; reflexivity. Qed.

Lemma fs_write_file p f g x fs : f <> g -> fs_write p f x fs p g = fs p g.
Proof. intros H. unfold fs_write. destruct f, g; try congruence; rewrite andb_false_r; reflexivity. Qed.

Lemma fs_write_mono p f x fs q g : fs_write p f x fs q g = None -> fs q g = None.
Proof. unfold fs_write. destruct (path_eqb p q && file_eqb f g); [discriminate|auto]. Qed.

Lemma run_ops_mono ops fs q g : run_ops ops fs q g = None -> fs q g = None.
Proof.
  revert fs. induction ops as [|o ops IH]; simpl; intros fs H; [exact H|]. apply IH in H.
  unfold apply_op in H. eapply fs_write_mono; eauto.
Qed.

(** The operations describe the resulting file system. *)
Lemma save_run ov al c : forall p fs ops fs' e,
  save ov al c p fs = (ops, fs', e) -> fs' = run_ops ops fs.
Proof.
  induction c as [cls unt b cf data subs H] using component_ind'. intros p fs ops fs' e Hs.
  rewrite save_unfold in Hs. cbn [k_configured k_untracked k_conf k_data k_subs] in Hs.
  destruct (negb b); [inversion Hs; reflexivity|]. destruct (negb al && _); [inversion Hs; reflexivity|].
  cbv zeta in Hs.
  destruct ((fs_exists fs (splitext_path p) FConf || _) && negb ov); [inversion Hs; reflexivity|].
  destruct cf as [cf|]; [|inversion Hs; reflexivity].
  set (o1 := mkOp _ FConf _) in *. set (o2 := mkOp _ FData _) in *.
  assert (Hsub : forall l fs0 ops0 fs0' e0, incl l subs ->
     save_subs ov al (splitext_path p) l fs0 = (ops0, fs0', e0) -> fs0' = run_ops ops0 fs0).
  { induction l as [|[n s] l IHl]; intros fs0 ops0 fs0' e0 Hincl Hl; cbn [save_subs] in Hl.
    - inversion Hl; reflexivity.
    - destruct (save ov al s (splitext_path p ++ [n]) fs0) as [[ops1 fs1] e1] eqn:E1.
      rewrite Forall_forall in H. assert (Hin : In (n, s) subs) by (apply Hincl; left; reflexivity).
      pose proof (H _ Hin _ _ _ _ _ E1) as R1. simpl in R1.
      destruct e1; [inversion Hl; subst; reflexivity|].
      destruct (save_subs ov al (splitext_path p) l fs1) as [[ops2 fs2] e2] eqn:E2.
      inversion Hl; subst. rewrite run_ops_app. eapply IHl; [|exact E2].
      intros x Hx; apply Hincl; right; exact Hx. }
  destruct (save_subs ov al (splitext_path p) subs (apply_op o2 (apply_op o1 fs))) as [[ops0 fs0] e0] eqn:E.
  inversion Hs; subst. simpl. eapply Hsub; [|exact E]. apply incl_refl.
Qed.

(** All files written lie in the directory or below. *)
Lemma save_under ov al c : forall p fs ops fs' e,
  save ov al c p fs = (ops, fs', e) ->
  Forall (fun o => exists q, o_path o = splitext_path p ++ q) ops.
Proof.
  induction c as [cls unt b cf data subs H] using component_ind'. intros p fs ops fs' e Hs.
  rewrite save_unfold in Hs. cbn [k_configured k_untracked k_conf k_data k_subs] in Hs.
  destruct (negb b); [inversion Hs; constructor|]. destruct (negb al && _); [inversion Hs; constructor|].
  cbv zeta in Hs.
  destruct ((fs_exists fs (splitext_path p) FConf || _) && negb ov); [inversion Hs; constructor|].
  destruct cf as [cf|]; [|inversion Hs; constructor].
  set (o1 := mkOp _ FConf _) in *. set (o2 := mkOp _ FData _) in *.
  assert (Hsub : forall l fs0 ops0 fs0' e0, incl l subs ->
     save_subs ov al (splitext_path p) l fs0 = (ops0, fs0', e0) ->
     Forall (fun o => exists q, o_path o = splitext_path p ++ q) ops0).
  { induction l as [|[n s] l IHl]; intros fs0 ops0 fs0' e0 Hincl Hl; cbn [save_subs] in Hl.
    - inversion Hl; constructor.
    - destruct (save ov al s (splitext_path p ++ [n]) fs0) as [[ops1 fs1] e1] eqn:E1.
      rewrite Forall_forall in H. assert (Hin : In (n, s) subs) by (apply Hincl; left; reflexivity).
      pose proof (H _ Hin _ _ _ _ _ E1) as R1. simpl in R1. rewrite splitext_path_snoc in R1.
      assert (R2 : Forall (fun o => exists q, o_path o = splitext_path p ++ q) ops1).
      { eapply Forall_impl; [|exact R1]. intros o [q Hq]. exists ([splitext_root n] ++ q).
        rewrite Hq, <- app_assoc. reflexivity. }
      destruct e1; [inversion Hl; subst; exact R2|].
      destruct (save_subs ov al (splitext_path p) l fs1) as [[ops2 fs2] e2] eqn:E2.
      inversion Hl; subst. apply Forall_app. split; [exact R2|]. eapply IHl; [|exact E2].
      intros x Hx; apply Hincl; right; exact Hx. }
  destruct (save_subs ov al (splitext_path p) subs (apply_op o2 (apply_op o1 fs))) as [[ops0 fs0] e0] eqn:E.
  inversion Hs; subst. constructor; [exists []; rewrite app_nil_r; reflexivity|].
  constructor; [exists []; rewrite app_nil_r; reflexivity|]. eapply Hsub; [|exact E]. apply incl_refl.
Qed.

(** Without overwriting, only files that did not exist are written. *)
Lemma save_no_overwrite al c : forall p fs ops fs' e,
  save false al c p fs = (ops, fs', e) ->
  Forall (fun o => fs (o_path o) (o_file o) = None) ops.
Proof.
  induction c as [cls unt b cf data subs H] using component_ind'. intros p fs ops fs' e Hs.
  rewrite save_unfold in Hs. cbn [k_configured k_untracked k_conf k_data k_subs] in Hs.
  destruct (negb b); [inversion Hs; constructor|]. destruct (negb al && _); [inversion Hs; constructor|].
  cbv zeta in Hs.
  destruct ((fs_exists fs (splitext_path p) FConf || _) && negb false) eqn:Eex; [inversion Hs; constructor|].
  rewrite andb_true_r in Eex. apply orb_false_iff in Eex. destruct Eex as [Ex1 Ex2].
  destruct cf as [cf|]; [|inversion Hs; constructor].
  set (o1 := mkOp _ FConf _) in *. set (o2 := mkOp _ FData _) in *.
  assert (Hsub : forall l fs0 ops0 fs0' e0, incl l subs ->
     save_subs false al (splitext_path p) l fs0 = (ops0, fs0', e0) ->
     Forall (fun o => fs0 (o_path o) (o_file o) = None) ops0).
  { induction l as [|[n s] l IHl]; intros fs0 ops0 fs0' e0 Hincl Hl; cbn [save_subs] in Hl.
    - inversion Hl; constructor.
    - destruct (save false al s (splitext_path p ++ [n]) fs0) as [[ops1 fs1] e1] eqn:E1.
      rewrite Forall_forall in H. assert (Hin : In (n, s) subs) by (apply Hincl; left; reflexivity).
      pose proof (H _ Hin _ _ _ _ _ E1) as R1. simpl in R1.
      destruct e1; [inversion Hl; subst; exact R1|].
      destruct (save_subs false al (splitext_path p) l fs1) as [[ops2 fs2] e2] eqn:E2.
      inversion Hl; subst. apply Forall_app. split; [exact R1|].
      apply save_run in E1. subst fs1.
      eapply Forall_impl; [|eapply IHl; [intros x Hx; apply Hincl; right; exact Hx|exact E2]].
      intros o Ho. simpl in Ho. eapply run_ops_mono; exact Ho. }
  destruct (save_subs false al (splitext_path p) subs (apply_op o2 (apply_op o1 fs))) as [[ops0 fs0] e0] eqn:E.
  inversion Hs; subst. unfold fs_exists in Ex1, Ex2.
  constructor; [simpl; destruct (fs (splitext_path p) FConf); [discriminate|reflexivity]|].
  constructor; [simpl; destruct (fs (splitext_path p) FData); [discriminate|reflexivity]|].
  eapply Forall_impl; [|eapply Hsub; [apply incl_refl|exact E]].
  intros o Ho. simpl in Ho. unfold apply_op in Ho. eapply fs_write_mono, fs_write_mono. exact Ho.
Qed.

(** In every crash state, files never mentioned by the operations are as before. *)
Lemma crash_frame ops fs fs' : Crash ops fs fs' ->
  forall q g, Forall (fun o => (o_path o, o_file o) <> (q, g)) ops -> fs' q g = fs q g.
Proof.
  induction 1 as [ops fs|p x ops fs y|p x ops fs|o ops fs fs' HC IH]; intros q g Hall.
  - reflexivity.
  - inversion Hall as [|? ? Hne _]; subst. simpl in Hne. unfold fs_write.
    destruct (path_eqb p q) eqn:Ep; [|reflexivity]. apply path_eqb_eq in Ep. subst.
    destruct g; [congruence|reflexivity].
  - inversion Hall as [|? ? Hne _]; subst. simpl in Hne. unfold fs_write.
    destruct (path_eqb p q) eqn:Ep; [|reflexivity]. apply path_eqb_eq in Ep. subst.
    destruct g; [reflexivity|congruence].
  - inversion Hall as [|? ? Hne Hall']; subst. rewrite IH by exact Hall'.
    unfold apply_op, fs_write. destruct (path_eqb (o_path o) q) eqn:Ep; [|reflexivity].
    apply path_eqb_eq in Ep. subst. destruct (o_file o) eqn:Ef, g; simpl; congruence.
Qed.

Lemma run_ops_crash ops fs : Crash ops fs (run_ops ops fs).
Proof.
  revert fs. induction ops as [|o ops IH]; intros fs; [constructor|]. apply Crash_later. apply IH.
Qed.

Lemma crash_protects al c p fs ops fs' e fs'' :
  save false al c p fs = (ops, fs', e) -> Crash ops fs fs'' ->
  forall q g x, fs q g = Some x -> fs'' q g = Some x.
Proof.
  intros Hs HC q g x Hx. rewrite <- Hx. eapply crash_frame; [exact HC|].
  eapply Forall_impl; [|eapply save_no_overwrite; exact Hs].
  intros o Ho Heq. inversion Heq; subst. congruence.
Qed.
