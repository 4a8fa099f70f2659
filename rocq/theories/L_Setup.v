(** Lemmas about the model of the setup manager. *)
From Verif Require Import Py PyFacts M_Setup S_Setup.

Lemma bind_ok {A B} (r : result A) (f : A -> result B) b :
  bind r f = Ok b -> exists a, r = Ok a /\ f a = Ok b.
Proof. destruct r; simpl; intros H; [eauto | discriminate]. Qed.

(** ** Formatting *)

Lemma digit_spec c :
  is_digit c = true <-> In c (list_ascii_of_string "0123456789").
Proof.
  split.
  - destruct c as [b0 b1 b2 b3 b4 b5 b6 b7].
    destruct b0, b1, b2, b3, b4, b5, b6, b7; vm_compute; intros H;
      try discriminate; tauto.
  - simpl. intros H. repeat (destruct H as [<- | H]; [reflexivity |]).
    destruct H.
Qed.

Lemma number_spec s : all_digits s = true <-> number_name s.
Proof.
  unfold number_name. induction s as [| c s IH]; simpl.
  - split; intros; constructor.
  - rewrite Bool.andb_true_iff, IH, digit_spec. simpl.
    split.
    + intros [A B]. constructor; [exact A | exact B].
    + intros H. inversion H; subst. split; assumption.
Qed.

Lemma app_str_assoc (a b c : string) :
  ((a ++ b) ++ c = a ++ (b ++ c))%string.
Proof. induction a; simpl; congruence. Qed.

Lemma app_str_nil (a : string) : (a ++ "" = a)%string.
Proof. induction a; simpl; congruence. Qed.

Lemma chars_app (a b : string) :
  list_ascii_of_string (a ++ b)%string =
  list_ascii_of_string a ++ list_ascii_of_string b.
Proof. induction a; simpl; congruence. Qed.

Lemma no_brace_cons c s :
  no_brace (String c s) <->
  c <> "{"%char /\ c <> "}"%char /\ no_brace s.
Proof.
  unfold no_brace. simpl. split.
  - intros [A B]. repeat split; intro; subst; tauto.
  - intros (A & B & C & D). split; intros [E | E]; subst; tauto.
Qed.

Section Format.
  Variable show : value -> string.
  Notation fmt := (format show).

  Lemma format_hole cfg n : no_brace n -> forall acc r,
    fmt cfg (Some acc) (n ++ String "}" r)%string =
    bind (field show cfg (acc ++ n)%string) (fun v =>
    bind (fmt cfg None r) (fun t => Ok (v ++ t)%string)).
  Proof.
    induction n as [| c n IH]; intros HB acc r.
    - rewrite app_str_nil. reflexivity.
    - apply no_brace_cons in HB. destruct HB as (A & B & C).
      cbn [String.append]. cbn [format].
      apply Ascii.eqb_neq in A. apply Ascii.eqb_neq in B.
      rewrite A, B, IH, app_str_assoc by exact C. reflexivity.
  Qed.

  (** A field that is open ends at the first closing bracket. *)
  Lemma format_open_ok cfg s : forall acc t,
    fmt cfg (Some acc) s = Ok t ->
    exists n r, no_brace n /\ s = (n ++ String "}" r)%string.
  Proof.
    induction s as [| c s IH]; intros acc t H; simpl in H; [discriminate |].
    destruct (Ascii.eqb c "}") eqn:E.
    - apply Ascii.eqb_eq in E. subst c. exists "", s. split; [| reflexivity].
      split; intros [].
    - destruct (Ascii.eqb c "{") eqn:E2; [discriminate |].
      apply IH in H. destruct H as (n & r & A & ->).
      exists (String c n), r. split; [| reflexivity].
      apply no_brace_cons. apply Ascii.eqb_neq in E.
      apply Ascii.eqb_neq in E2. tauto.
  Qed.

  Lemma field_ok cfg n t : field show cfg n = Ok t <->
    ~ number_name n /\
    exists v, dget n cfg = Some v /\ t = text_of show v.
  Proof.
    unfold field. rewrite <- number_spec.
    destruct (all_digits n).
    - split; [discriminate | intros [A _]; destruct A; reflexivity].
    - destruct (dget n cfg) as [v |] eqn:G.
      + split.
        * intros H. split; [discriminate |]. exists v. split; [reflexivity |].
          destruct v; simpl; congruence.
        * intros (_ & v' & E & ->). injection E as <-.
          destruct v; reflexivity.
      + split; [discriminate | intros (_ & v & E & _); discriminate].
  Qed.

  Lemma str_len_app (a b : string) :
    String.length (a ++ b)%string = String.length a + String.length b.
  Proof. induction a; simpl; congruence. Qed.

  Lemma format_open_brace cfg r :
    fmt cfg None (String "{" (String "{" r)) =
    bind (fmt cfg None r) (fun t => Ok (String "{" t)).
  Proof. reflexivity. Qed.

  Lemma format_hole' cfg n r : no_brace n ->
    fmt cfg None (String "{" (n ++ String "}" r))%string =
    bind (field show cfg n) (fun v =>
    bind (fmt cfg None r) (fun t => Ok (v ++ t)%string)).
  Proof.
    intros HB.
    assert (H : fmt cfg None (String "{" (n ++ String "}" r))%string =
                fmt cfg (Some "") (n ++ String "}" r)%string).
    { destruct n as [| c n]; [reflexivity |].
      apply no_brace_cons in HB. destruct HB as (A & B & C).
      cbn [String.append]. cbn [format].
      replace (Ascii.eqb "{" "{") with true by reflexivity.
      destruct c as [b0 b1 b2 b3 b4 b5 b6 b7].
      destruct b0, b1, b2, b3, b4, b5, b6, b7; try reflexivity;
        exfalso; apply A; reflexivity. }
    rewrite H. rewrite format_hole by exact HB. reflexivity.
  Qed.

  Lemma format_char cfg c s : c <> "{"%char -> c <> "}"%char ->
    fmt cfg None (String c s) =
    bind (fmt cfg None s) (fun t => Ok (String c t)).
  Proof.
    intros A B. apply Ascii.eqb_neq in A. apply Ascii.eqb_neq in B.
    cbn [format]. rewrite A, B. reflexivity.
  Qed.

  (** The shape of strings which can be formatted. *)
  Lemma format_cases cfg s t : fmt cfg None s = Ok t ->
    s = "" \/
    (exists r, s = String "{" (String "{" r)) \/
    (exists r, s = String "}" (String "}" r)) \/
    (exists c r, s = String c r /\ c <> "{"%char /\ c <> "}"%char) \/
    (exists n r, s = String "{" (n ++ String "}" r)%string /\ no_brace n).
  Proof.
    destruct s as [| c r]; intros H; [left; reflexivity | right].
    destruct (Ascii.eqb c "{") eqn:E.
    - apply Ascii.eqb_eq in E. subst c.
      destruct (match r with String "{" _ => true | _ => false end) eqn:M.
      + left. destruct r as [| c r]; [discriminate |].
        destruct c as [b0 b1 b2 b3 b4 b5 b6 b7].
        destruct b0, b1, b2, b3, b4, b5, b6, b7; try discriminate.
        exists r. reflexivity.
      + right. right. right.
        assert (H' : fmt cfg (Some "") r = Ok t).
        { rewrite <- H. cbn [format].
          replace (Ascii.eqb "{" "{") with true by reflexivity.
          destruct r as [| c r]; [reflexivity |].
          destruct c as [b0 b1 b2 b3 b4 b5 b6 b7].
          destruct b0, b1, b2, b3, b4, b5, b6, b7; try discriminate;
            reflexivity. }
        apply format_open_ok in H'. destruct H' as (n & r' & A & ->).
        exists n, r'. split; [reflexivity | exact A].
    - destruct (Ascii.eqb c "}") eqn:E2.
      + apply Ascii.eqb_eq in E2. subst c. right. left.
        destruct r as [| c r]; [discriminate |].
        destruct c as [b0 b1 b2 b3 b4 b5 b6 b7].
        destruct b0, b1, b2, b3, b4, b5, b6, b7; try discriminate.
        exists r. reflexivity.
      + right. right. left. exists c, r.
        apply Ascii.eqb_neq in E. apply Ascii.eqb_neq in E2. tauto.
  Qed.

  Lemma format_renders cfg : forall s t, fmt cfg None s = Ok t <->
    renders (text_of show) (fun k => dget k cfg) s t.
  Proof.
    intros s. remember (String.length s) as m eqn:Hm.
    assert (Hle : String.length s <= m) by lia. clear Hm. revert s Hle.
    induction m as [| m IH]; intros s Hle t.
    - destruct s; [| simpl in Hle; lia]. simpl. split.
      + intros H. injection H as <-. constructor.
      + intros H. inversion H; subst. reflexivity.
    - split.
      + intros H. pose proof (format_cases cfg s t H) as C.
        destruct C as [-> | [(r & ->) | [(r & ->) |
          [(c & r & -> & A & B) | (n & r & -> & A)]]]].
        * simpl in H. injection H as <-. constructor.
        * rewrite format_open_brace in H.
          apply bind_ok in H. destruct H as (u & H & E). injection E as <-.
          constructor. apply IH; [simpl in Hle; lia | exact H].
        * change (fmt cfg None (String "}" (String "}" r))) with
            (bind (fmt cfg None r) (fun t => Ok (String "}" t))) in H.
          apply bind_ok in H. destruct H as (u & H & E). injection E as <-.
          constructor. apply IH; [simpl in Hle; lia | exact H].
        * rewrite format_char in H by assumption.
          apply bind_ok in H. destruct H as (u & H & E). injection E as <-.
          constructor; [exact A | exact B |].
          apply IH; [simpl in Hle; lia | exact H].
        * rewrite format_hole' in H by assumption.
          apply bind_ok in H. destruct H as (w & HF & H).
          apply bind_ok in H. destruct H as (u & H & E). injection E as <-.
          apply field_ok in HF. destruct HF as (N & v & G & ->).
          apply (R_hole _ _ n v r u A N G).
          apply IH; [| exact H].
          simpl in Hle. rewrite str_len_app in Hle. simpl in Hle. lia.
      + intros H. inversion H; subst.
        * reflexivity.
        * rewrite format_open_brace.
          rewrite (proj2 (IH s0 ltac:(simpl in Hle; lia) t0) H0).
          reflexivity.
        * change (fmt cfg None (String "}" (String "}" s0))) with
            (bind (fmt cfg None s0) (fun t => Ok (String "}" t))).
          rewrite (proj2 (IH s0 ltac:(simpl in Hle; lia) t0) H0).
          reflexivity.
        * rewrite format_char by assumption.
          rewrite (proj2 (IH s0 ltac:(simpl in Hle; lia) t0) H2).
          reflexivity.
        * rewrite format_hole' by assumption.
          assert (F : field show cfg n = Ok (text_of show v)).
          { apply field_ok. split; [assumption |]. exists v. auto. }
          rewrite F. simpl.
          assert (L : String.length s0 <= m).
          { simpl in Hle. rewrite str_len_app in Hle. simpl in Hle. lia. }
          rewrite (proj2 (IH s0 L t0) H3). reflexivity.
  Qed.
End Format.

(** Rendering is possible iff the template is valid and the names exist. *)
Lemma renders_exists text vals s :
  (exists t, renders text vals s t) <->
  (exists names, template s names /\
     Forall (fun n => ~ number_name n /\ vals n <> None) names).
Proof.
  split.
  - intros (t & H). induction H.
    + exists []. split; constructor.
    + destruct IHrenders as (l & A & B). exists l. split; [| exact B].
      constructor. exact A.
    + destruct IHrenders as (l & A & B). exists l. split; [| exact B].
      constructor. exact A.
    + destruct IHrenders as (l & A & B). exists l. split; [| exact B].
      constructor; assumption.
    + destruct IHrenders as (l & A & B). exists (n :: l). split.
      * constructor; assumption.
      * constructor; [| exact B]. split; [assumption | congruence].
  - intros (names & H & F). induction H.
    + exists "". constructor.
    + destruct (IHtemplate F) as (t & A). eexists. constructor. exact A.
    + destruct (IHtemplate F) as (t & A). eexists. constructor. exact A.
    + destruct (IHtemplate F) as (t & A). eexists. constructor; eassumption.
    + inversion F; subst. destruct H3 as [N G].
      destruct (IHtemplate H4) as (t & A).
      destruct (vals n) as [v |] eqn:E; [| congruence].
      eexists. eapply R_hole; eassumption.
Qed.

Lemma renders_ext text v1 v2 s t :
  renders text v1 s t ->
  (forall names, template s names ->
     forall n, In n names -> v1 n = v2 n) ->
  renders text v2 s t.
Proof.
  induction 1; intros E.
  - constructor.
  - constructor. apply IHrenders. intros l T. apply E. constructor. exact T.
  - constructor. apply IHrenders. intros l T. apply E. constructor. exact T.
  - constructor; try assumption. apply IHrenders. intros l T. apply E.
    constructor; assumption.
  - pose proof (proj1 (renders_exists text v1 s)
                  (ex_intro _ t H2)) as (l0 & T0 & _).
    eapply R_hole; try eassumption.
    + rewrite <- (E (n :: l0)); [assumption | | left; reflexivity].
      constructor; assumption.
    + apply IHrenders. intros l T m Hm.
      apply (E (n :: l)); [constructor; assumption | right; exact Hm].
Qed.

Lemma renders_plain text vals s : no_brace s -> renders text vals s s.
Proof.
  induction s as [| c s IH]; intros H; [constructor |].
  apply no_brace_cons in H. destruct H as (A & B & C).
  constructor; auto.
Qed.

Lemma renders_fun text vals s t1 : renders text vals s t1 ->
  forall t2, renders text vals s t2 -> t1 = t2.
Proof.
  assert (K : forall n m a b, no_brace n -> no_brace m ->
    (n ++ String "}" a)%string = (m ++ String "}" b)%string -> n = m /\ a = b).
  { induction n as [| c n IH]; intros m a b Hn Hm E; destruct m as [| e m].
    - simpl in E. injection E as ->. auto.
    - simpl in E. injection E as <- _. apply no_brace_cons in Hm. tauto.
    - simpl in E. injection E as -> _. apply no_brace_cons in Hn. tauto.
    - simpl in E. injection E as -> E.
      apply no_brace_cons in Hn. apply no_brace_cons in Hm.
      destruct (IH m a b) as [-> ->]; tauto. }
  assert (K2 : forall n r s, no_brace n ->
    (n ++ String "}" r)%string = String "{" s -> False).
  { intros n r s0 Hn E. destruct n; simpl in E; injection E; intros; subst.
    - discriminate.
    - apply no_brace_cons in Hn. tauto. }
  induction 1; intros t2 H'; inversion H'; subst; try congruence;
    try (f_equal; auto; fail).
  - exfalso. match goal with E : (_ ++ _)%string = String "{" _ |- _ =>
      eapply K2; [| exact E]; assumption end.
  - exfalso. match goal with E : String "{" _ = (_ ++ _)%string |- _ =>
      eapply K2; [| symmetry; exact E]; assumption end.
  - match goal with E : (_ ++ _)%string = (_ ++ _)%string |- _ =>
      apply K in E; [| assumption | assumption]; destruct E as [-> ->] end.
    assert (v0 = v) by congruence. subst. f_equal. auto.
Qed.

(** ** Expansion *)

Section Expand.
  Variable show : value -> string.

  (** Expansion without assignments into a common dictionary: [ctx x] is the
      whole configuration when the value has reached the state [x]. *)
  Fixpoint expv (v : value) (ctx : value -> dict value) : result value :=
    match v with
    | VStr s =>
        bind (format show (ctx v) None s) (fun t => Ok (VStr t))
    | VDict d =>
        (fix go (done d : list (string * value)) : result value :=
           match d with
           | [] => Ok (VDict done)
           | (k, w) :: d' =>
               bind (expv w (fun x => ctx (VDict (done ++ (k, x) :: d'))))
                    (fun w' => go (done ++ [(k, w')]) d')
           end) [] d
    | _ => Ok v
    end.

  Definition expl (ctx : value -> dict value) :=
    fix go (done d : list (string * value)) : result value :=
      match d with
      | [] => Ok (VDict done)
      | (k, w) :: d' =>
          bind (expv w (fun x => ctx (VDict (done ++ (k, x) :: d'))))
               (fun w' => go (done ++ [(k, w')]) d')
      end.

  Definition expand_list (path : list string) :=
    fix go (d : list (string * value)) (top : dict value)
      : result (dict value) :=
      match d with
      | [] => Ok top
      | (k, w) :: d' =>
          bind (expand show w (path ++ [k]) top) (fun top' => go d' top')
      end.

  Lemma expv_dict d ctx : expv (VDict d) ctx = expl ctx [] d.
  Proof. reflexivity. Qed.

  Lemma expand_dict d path top :
    expand show (VDict d) path top = expand_list path d top.
  Proof. reflexivity. Qed.

  Definition plugs (path : list string) (ctx : value -> dict value) : Prop :=
    forall p x d, p <> [] ->
      set_path (path ++ p) x (ctx (VDict d)) = ctx (VDict (set_path p x d)).

  Definition plugs0 (path : list string) (ctx : value -> dict value) : Prop :=
    forall x y, set_path path x (ctx y) = ctx x.

  Lemma dset_mid {A} k (x y : A) done d :
    ~ In k (dkeys done) -> dset k x (done ++ (k, y) :: d) =
    done ++ (k, x) :: d.
  Proof.
    induction done as [| [k' z] done IH]; intros H; simpl.
    - rewrite String.eqb_refl. reflexivity.
    - simpl in H. destruct (String.eqb_spec k k'); [subst; tauto |].
      rewrite IH by tauto. reflexivity.
  Qed.

  Lemma dget_mid {A} k (y : A) done d :
    ~ In k (dkeys done) -> dget k (done ++ (k, y) :: d) = Some y.
  Proof.
    induction done as [| [k' z] done IH]; intros H; simpl.
    - rewrite String.eqb_refl. reflexivity.
    - simpl in H. destruct (String.eqb_spec k k'); [subst; tauto |].
      apply IH. tauto.
  Qed.

  Lemma plugs_sub path ctx k done d' :
    plugs path ctx -> ~ In k (dkeys done) ->
    plugs (path ++ [k]) (fun x => ctx (VDict (done ++ (k, x) :: d'))) /\
    plugs0 (path ++ [k]) (fun x => ctx (VDict (done ++ (k, x) :: d'))).
  Proof.
    intros HP HK. split.
    - intros p x d Hp. rewrite <- app_assoc. rewrite HP by discriminate.
      f_equal. f_equal. destruct p as [| q p]; [congruence |].
      change (set_path ([k] ++ q :: p) x (done ++ (k, VDict d) :: d')) with
        (match dget k (done ++ (k, VDict d) :: d') with
         | Some (VDict e) => dset k (VDict (set_path (q :: p) x e))
                               (done ++ (k, VDict d) :: d')
         | _ => done ++ (k, VDict d) :: d'
         end).
      rewrite dget_mid by exact HK. apply dset_mid. exact HK.
    - intros x y. rewrite HP by discriminate. f_equal. f_equal.
      simpl. apply dset_mid. exact HK.
  Qed.

  Lemma expand_expl path ctx d : forall done,
    Forall (fun kv => forall path ctx, plugs path ctx -> plugs0 path ctx ->
      expand show (snd kv) path (ctx (snd kv)) =
      bind (expv (snd kv) ctx) (fun w => Ok (ctx w))) d ->
    plugs path ctx -> NoDup (dkeys (done ++ d)) ->
    expand_list path d (ctx (VDict (done ++ d))) =
    bind (expl ctx done d) (fun w => Ok (ctx w)).
  Proof.
    induction d as [| [k w] d IH]; intros done HF HP HN.
    - rewrite app_nil_r. reflexivity.
    - inversion HF as [| x l Hw HF']; subst. simpl in Hw.
      assert (HK : ~ In k (dkeys done)).
      { unfold dkeys in *. rewrite map_app in HN. simpl in HN.
        apply NoDup_remove_2 in HN. intro. apply HN. apply in_or_app. tauto. }
      destruct (plugs_sub path ctx k done d HP HK) as [A B].
      cbn [expand_list expl].
      rewrite (Hw _ _ A B).
      destruct (expv w (fun x => ctx (VDict (done ++ (k, x) :: d))))
        as [w' | e]; [| reflexivity].
      cbn [bind].
      replace (done ++ (k, w') :: d) with ((done ++ [(k, w')]) ++ d)
        by (rewrite <- app_assoc; reflexivity).
      rewrite IH; [reflexivity | exact HF' | exact HP |].
      unfold dkeys in *. rewrite <- app_assoc. rewrite map_app in *.
      simpl in *. exact HN.
  Qed.

  Lemma expand_expv : forall v, vwf v -> forall path ctx,
    plugs path ctx -> plugs0 path ctx ->
    expand show v path (ctx v) = bind (expv v ctx) (fun w => Ok (ctx w)).
  Proof.
    fix IH 1. intros v Hv path ctx HP HP0.
    destruct v as [| b | z | s | l | l | d]; try reflexivity.
    - cbn [expand expv]. destruct (format show (ctx (VStr s)) None s);
        [| reflexivity].
      cbn [bind]. rewrite HP0. reflexivity.
    - rewrite expand_dict, expv_dict.
      inversion Hv as [| | | | | | d' Hd HF]; subst.
      apply (expand_expl path ctx d []); [| exact HP | exact Hd].
      clear Hd Hv HP HP0 path ctx.
      induction d as [| [k w] d IHd]; [constructor |].
      inversion HF; subst. constructor.
      + simpl. intros path ctx A B. apply IH; [exact H1 | exact A | exact B].
      + apply IHd. exact H2.
  Qed.

  Definition ctx0 (v : value) : dict value :=
    match v with VDict d => d | _ => [] end.

  Lemma expand_top c : dvwf c ->
    expand show (VDict c) [] c =
    bind (expl ctx0 [] c) (fun w => Ok (ctx0 w)).
  Proof.
    intros [Hd HF]. rewrite expand_dict.
    apply (expand_expl [] ctx0 c []); [| | exact Hd].
    - apply Forall_forall. intros kv Hin. rewrite Forall_forall in HF.
      intros path ctx. apply expand_expv. apply HF. exact Hin.
    - intros p x d Hp. reflexivity.
  Qed.

  Lemma expl_split ctx d : forall done F,
    expl ctx done d = Ok F ->
    exists f, F = VDict (done ++ f) /\ map fst f = map fst d /\
    forall pre k v post, d = pre ++ (k, v) :: post ->
      exists pre' v' post', f = pre' ++ (k, v') :: post' /\
        map fst pre' = map fst pre /\ map fst post' = map fst post /\
        expv v (fun x => ctx (VDict ((done ++ pre') ++ (k, x) :: post)))
          = Ok v'.
  Proof.
    induction d as [| [k w] d IH]; intros done F H.
    - simpl in H. injection H as <-. exists []. rewrite app_nil_r.
      repeat split; auto. intros pre k v post E. destruct pre; discriminate.
    - cbn [expl] in H. apply bind_ok in H. destruct H as (w' & Hw & H).
      apply IH in H. destruct H as (f & -> & Hk & HS).
      exists ((k, w') :: f). split; [rewrite <- app_assoc; reflexivity |].
      split; [simpl; f_equal; exact Hk |].
      intros pre k0 v post E. destruct pre as [| [k1 v1] pre].
      + injection E as -> -> ->. exists [], w', f. repeat split; auto.
        rewrite app_nil_r. exact Hw.
      + injection E as -> -> ->.
        destruct (HS pre k0 v post eq_refl) as (p' & v' & q' & -> & A & B & C).
        exists ((k1, w') :: p'), v', q'. split; [reflexivity |].
        split; [simpl; f_equal; exact A |]. split; [exact B |].
        rewrite <- C. do 2 f_equal.
        rewrite <- !app_assoc. reflexivity.
  Qed.

  Lemma expv_spec : forall v ctx w, expv v ctx = Ok w ->
    same_shape v w /\
    forall p s, leaf v p s -> exists mid t, leaf w p t /\
      renders (text_of show) (fun k => dget k (ctx mid)) s t.
  Proof.
    fix IH 1. intros v ctx w H.
    destruct v as [| b | z | s | l | l | d];
      try (cbn [expv] in H; injection H as <-; split;
           [constructor | intros p q L; inversion L]; fail).
    - cbn [expv] in H. apply bind_ok in H. destruct H as (t & H & E).
      injection E as <-. split; [constructor |].
      intros p s' L. inversion L; subst. exists (VStr s'), t.
      split; [constructor |]. apply format_renders. exact H.
    - rewrite expv_dict in H.
      assert (K : forall done e, expl ctx done d = Ok e ->
        exists f, e = VDict (done ++ f) /\
          Forall2 (fun a b => fst a = fst b /\ same_shape (snd a) (snd b)) d f
          /\ forall k u p s, In (k, u) d -> leaf u p s ->
               exists u' mid t, In (k, u') f /\ leaf u' p t /\
                 renders (text_of show) (fun k => dget k (ctx mid)) s t).
      { clear H. induction d as [| [k u] d IHd]; intros done e H.
        - simpl in H. injection H as <-. exists []. rewrite app_nil_r.
          repeat split; auto. intros k u p s [].
        - cbn [expl] in H. apply bind_ok in H. destruct H as (u' & Hu & H).
          apply IHd in H. destruct H as (f & -> & HF & HL).
          apply IH in Hu. destruct Hu as [SH LF].
          exists ((k, u') :: f). split; [rewrite <- app_assoc; reflexivity |].
          split; [constructor; [split; [reflexivity | exact SH] | exact HF] |].
          intros k1 u1 p s [E | Hin] L.
          + injection E as <- <-. destruct (LF p s L) as (mid & t & A & B).
            exists u', (VDict (done ++ (k, mid) :: d)), t.
            split; [left; reflexivity | split; assumption].
          + destruct (HL k1 u1 p s Hin L) as (x & mid & t & A & B & C).
            exists x, mid, t. split; [right; exact A | split; assumption]. }
      destruct (K [] w H) as (f & -> & HF & HL). simpl. split.
      + constructor. exact HF.
      + intros p s L. inversion L; subst.
        destruct (HL _ _ _ _ ltac:(eassumption) ltac:(eassumption))
          as (x & mid & t & A & B & C).
        exists mid, t. split; [| exact C]. econstructor; eassumption.
  Qed.

  Lemma good_format cfg s : good (dkeys cfg) s ->
    exists t, format show cfg None s = Ok t.
  Proof.
    intros (l & T & F).
    destruct (proj2 (renders_exists (text_of show)
                (fun k => dget k cfg) s)) as (t & R).
    - exists l. split; [exact T |]. eapply Forall_impl; [| exact F].
      simpl. intros n [A B]. split; [exact A |].
      destruct (In_keys_dget n cfg B) as (v & E). congruence.
    - exists t. apply format_renders. exact R.
  Qed.

  Lemma expv_total names : forall v ctx,
    (forall x, dkeys (ctx x) = names) ->
    (forall p s, leaf v p s -> good names s) ->
    exists w, expv v ctx = Ok w.
  Proof.
    fix IH 1. intros v ctx HC HL.
    destruct v as [| b | z | s | l | l | d];
      try (eexists; reflexivity).
    - cbn [expv]. destruct (good_format (ctx (VStr s)) s) as (t & E).
      + rewrite HC. apply (HL []). constructor.
      + rewrite E. eexists. reflexivity.
    - rewrite expv_dict.
      assert (HL' : forall k u p s, In (k, u) d -> leaf u p s ->
                good names s).
      { intros k u p s A B. apply (HL (k :: p)). econstructor; eassumption. }
      clear HL. generalize (@nil (string * value)).
      induction d as [| [k u] d IHd]; intros done; [eexists; reflexivity |].
      cbn [expl].
      destruct (IH u (fun x => ctx (VDict (done ++ (k, x) :: d)))) as (w & E).
      + intros x. apply HC.
      + intros p s L. apply (HL' k u p s); [left; reflexivity | exact L].
      + rewrite E. cbn [bind]. apply IHd.
        intros k1 u1 p s A B. apply (HL' k1 u1 p s); [right; exact A | exact B].
  Qed.

  Lemma expl_total names d : forall done,
    dkeys (done ++ d) = names ->
    (forall k v p s, In (k, v) d -> leaf v p s -> good names s) ->
    exists w, expl ctx0 done d = Ok w.
  Proof.
    induction d as [| [k u] d IH]; intros done HK HL;
      [eexists; reflexivity |].
    cbn [expl].
    destruct (expv_total names u
                (fun x => ctx0 (VDict (done ++ (k, x) :: d)))) as (w & E).
    - intros x. simpl. rewrite <- HK. unfold dkeys. rewrite !map_app.
      reflexivity.
    - intros p s L. apply (HL k u p s); [left; reflexivity | exact L].
    - rewrite E. cbn [bind]. apply IH.
      + rewrite <- HK. unfold dkeys. rewrite !map_app, <- app_assoc.
        reflexivity.
      + intros k1 v p s A B. apply (HL k1 v p s); [right; exact A | exact B].
  Qed.

End Expand.

(** ** Repeated assignments *)

Lemma filter_uniq_In x l : In x (uniq l) <-> In x l.
Proof.
  revert x. induction l as [| a l IH]; intros x; simpl; [tauto |].
  split.
  - intros [-> | H]; [left; reflexivity |].
    apply filter_In in H. right. apply IH. tauto.
  - intros H. destruct (String.eqb_spec a x) as [E | E]; [left; exact E |].
    right. apply filter_In. split.
    + apply IH. destruct H; [congruence | assumption].
    + destruct (String.eqb_spec a x); [congruence | reflexivity].
Qed.

Lemma uniq_snoc l x :
  uniq (l ++ [x]) = if in_dec string_dec x l then uniq l else uniq l ++ [x].
Proof.
  induction l as [| a l IH].
  - reflexivity.
  - cbn [app uniq]. rewrite IH.
    destruct (in_dec string_dec x l) as [I | I];
      destruct (in_dec string_dec x (a :: l)) as [J | J].
    + reflexivity.
    + exfalso. apply J. right. exact I.
    + destruct J as [-> | J]; [| tauto].
      rewrite filter_app. simpl. rewrite String.eqb_refl. simpl.
      rewrite app_nil_r. reflexivity.
    + rewrite filter_app. simpl.
      destruct (String.eqb_spec a x) as [-> | E].
      * exfalso. apply J. left. reflexivity.
      * reflexivity.
Qed.

Lemma last_value_app k l1 l2 : last_value k (l1 ++ l2) =
  match last_value k l2 with Some v => Some v | None => last_value k l1 end.
Proof.
  induction l1 as [| [k' v] l1 IH]; simpl.
  - destruct (last_value k l2); reflexivity.
  - rewrite IH. destruct (last_value k l2); [reflexivity |].
    reflexivity.
Qed.

Lemma last_value_None k l : last_value k l = None <-> ~ In k (map fst l).
Proof.
  induction l as [| [k' v] l IH]; simpl; [tauto |].
  destruct (last_value k l) as [w |].
  - split; [discriminate |]. intros H. exfalso.
    apply H. right. destruct (in_dec string_dec k (map fst l)); [assumption |].
    apply IH in n. discriminate.
  - destruct (String.eqb_spec k k') as [-> | E].
    + split; [discriminate | intros H; exfalso; apply H; left; reflexivity].
    + split; [| reflexivity]. intros _ [A | A]; [congruence |].
      exact (proj1 IH eq_refl A).
Qed.

Lemma outcome_dset l raw k v : outcome l raw ->
  outcome (l ++ [(k, v)]) (dset k v raw).
Proof.
  intros [A B]. split.
  - rewrite map_app. cbn [map fst]. rewrite uniq_snoc.
    destruct (dmem k raw) eqn:E.
    + change (map fst (dset k v raw)) with (dkeys (dset k v raw)).
      rewrite dkeys_dset_mem by exact E. apply dmem_In in E.
      destruct (in_dec string_dec k (map fst l)) as [I | I]; [exact A |].
      exfalso. apply I. apply filter_uniq_In. rewrite <- A. exact E.
    + change (map fst (dset k v raw)) with (dkeys (dset k v raw)).
      rewrite dkeys_dset_not by exact E. apply dmem_false in E.
      destruct (in_dec string_dec k (map fst l)) as [I | I].
      * exfalso. apply dget_None_iff in E. apply E. unfold dkeys.
        rewrite A. apply filter_uniq_In. exact I.
      * unfold dkeys. rewrite A. reflexivity.
  - intros k'. rewrite last_value_app. simpl.
    destruct (String.eqb_spec k' k) as [-> | E].
    + apply dget_dset_same.
    + rewrite dget_dset_other by exact E. apply B.
Qed.

Lemma outcome_dupdate e : forall l raw, outcome l raw ->
  outcome (l ++ e) (dupdate raw e).
Proof.
  induction e as [| [k v] e IH]; intros l raw H.
  - rewrite app_nil_r. exact H.
  - unfold dupdate in *. simpl.
    replace (l ++ (k, v) :: e) with ((l ++ [(k, v)]) ++ e)
      by (rewrite <- app_assoc; reflexivity).
    apply IH. apply outcome_dset. exact H.
Qed.

Lemma outcome_nil : outcome [] [].
Proof. split; [reflexivity | intros; reflexivity]. Qed.

Lemma uniq_nodup l : NoDup (uniq l).
Proof.
  induction l as [| a l IH]; simpl; [constructor |].
  constructor.
  - intros H. apply filter_In in H. rewrite String.eqb_refl in H.
    destruct H as [_ H]. discriminate.
  - apply NoDup_filter. exact IH.
Qed.

Lemma outcome_unique l r1 r2 : outcome l r1 -> outcome l r2 -> r1 = r2.
Proof.
  intros [A1 B1] [A2 B2].
  assert (W : dwf r1). { unfold dwf, dkeys. rewrite A1. apply uniq_nodup. }
  assert (K : map fst r1 = map fst r2) by congruence.
  assert (G : forall k, dget k r1 = dget k r2) by (intros; congruence).
  clear A1 B1 A2 B2. revert r2 K G.
  induction r1 as [| [k v] r1 IH]; intros r2 K G; destruct r2 as [| [k2 v2] r2];
    try discriminate; [reflexivity |].
  simpl in K. injection K as <- K.
  pose proof (G k) as E. simpl in E. rewrite String.eqb_refl in E.
  injection E as <-. f_equal. inversion W; subst.
  apply IH; [assumption | assumption |].
  intros k'. pose proof (G k') as E. simpl in E.
  destruct (String.eqb_spec k' k) as [EE | N]; [subst k' | exact E].
  assert (N1 : dget k r1 = None) by (apply dget_None_iff; assumption).
  assert (N2 : dget k r2 = None).
  { apply dget_None_iff. unfold dkeys. rewrite <- K. assumption. }
  congruence.
Qed.

(** ** Files *)

Lemma dset_fresh {A} k (v : A) d : ~ In k (dkeys d) -> dset k v d = d ++ [(k, v)].
Proof.
  induction d as [| [k' w] d IH]; intros H; [reflexivity |].
  simpl in *. destruct (String.eqb_spec k k'); [subst; tauto |].
  rewrite IH by tauto. reflexivity.
Qed.

Lemma dupdate_fresh {A} (e : dict A) : forall d, dwf e ->
  (forall k, In k (dkeys d) -> In k (dkeys e) -> False) ->
  dupdate d e = d ++ e.
Proof.
  induction e as [| [k v] e IH]; intros d We HD.
  - rewrite app_nil_r. reflexivity.
  - unfold dupdate in *. simpl.
    rewrite dset_fresh.
    2: { intro H. apply (HD k H). left. reflexivity. }
    inversion We; subst.
    rewrite IH; [rewrite <- app_assoc; reflexivity | assumption |].
    intros k' I1 I2. unfold dkeys in I1. rewrite map_app in I1.
    apply in_app_or in I1. destruct I1 as [I1 | [<- | []]].
    + apply (HD k' I1). right. exact I2.
    + contradiction.
Qed.

Lemma common_key_spec cfg upd :
  existsb (fun k => dmem k upd) (dkeys cfg) = false <->
  no_common_key cfg upd.
Proof.
  split.
  - intros H k A B. assert (E : existsb (fun k => dmem k upd) (dkeys cfg) = true).
    { apply existsb_exists. exists k. split; [exact A |].
      apply dmem_In. exact B. }
    congruence.
  - intros H. destruct (existsb _ _) eqn:E; [| reflexivity].
    apply existsb_exists in E. destruct E as (k & A & B).
    apply dmem_In in B. destruct (H k A B).
Qed.

Fixpoint disjoint_from (cfg : dict value) (upds : list (dict value)) : Prop :=
  match upds with
  | [] => True
  | u :: upds' => no_common_key cfg u /\ disjoint_from (cfg ++ u) upds'
  end.

Lemma disjoint_from_spec upds : forall cfg, disjoint_from cfg upds <->
  Forall (no_common_key cfg) upds /\ ForallOrdPairs no_common_key upds.
Proof.
  induction upds as [| u upds IH]; intros cfg; simpl.
  - split; [intros _; split; constructor | tauto].
  - rewrite IH. split.
    + intros (A & B & C). split.
      * constructor; [exact A |]. eapply Forall_impl; [| exact B].
        intros w H k K1 K2. apply (H k); [| exact K2].
        rewrite map_app. apply in_or_app. tauto.
      * constructor; [| exact C]. eapply Forall_impl; [| exact B].
        intros w H k K1 K2. apply (H k); [| exact K2].
        rewrite map_app. apply in_or_app. tauto.
    + intros (A & B). inversion A; subst. inversion B; subst.
      split; [assumption |]. split; [| assumption].
      rewrite Forall_forall in *. intros w Hw k K1 K2.
      rewrite map_app in K1. apply in_app_or in K1.
      destruct K1 as [K1 | K1].
      * eapply H2; eassumption.
      * eapply H3; eassumption.
Qed.

Definition next_name (name : option string) (f : string) : string :=
  match name with
  | None => drop_yaml (basename f)
  | Some n => (n ++ "__" ++ drop_yaml (basename f))%string
  end.

Fixpoint final_name (name : option string) (fs : list string)
  : option string :=
  match fs with
  | [] => name
  | f :: fs' => final_name (Some (next_name name f)) fs'
  end.

Lemma combine_ok load fs : (forall f v, load f = Ok v -> vwf v) ->
  forall cfg name c n,
  combine_files load fs cfg name = Ok (c, n) <->
  exists upds, Forall2 (fun f u => load f = Ok (VDict u)) fs upds /\
    disjoint_from cfg upds /\ c = cfg ++ concat upds /\
    n = final_name name fs.
Proof.
  intros HW. induction fs as [| f fs IH]; intros cfg name c n.
  - simpl. split.
    + intros H. injection H as <- <-. exists [].
      repeat split; [constructor | rewrite app_nil_r; reflexivity].
    + intros (upds & F & _ & -> & ->). inversion F; subst. simpl.
      rewrite app_nil_r. reflexivity.
  - cbn [combine_files final_name]. split.
    + intros H. apply bind_ok in H. destruct H as (u & L & H).
      destruct u as [| | | | | | u]; try discriminate.
      destruct (existsb (fun k => dmem k u) (dkeys cfg)) eqn:E;
        [discriminate |].
      apply common_key_spec in E.
      assert (W : dwf u). { apply HW in L. inversion L; subst. assumption. }
      rewrite dupdate_fresh in H; [| exact W | exact E].
      apply IH in H. destruct H as (upds & F & D & -> & ->).
      exists (u :: upds). split; [constructor; assumption |].
      split; [split; assumption |]. simpl. rewrite <- app_assoc.
      split; reflexivity.
    + intros (upds & F & D & -> & ->).
      destruct upds as [| u upds]; inversion F; subst.
      rewrite H2. cbn [bind]. destruct D as [D1 D2].
      rewrite (proj2 (common_key_spec cfg u) D1).
      assert (W : dwf u). { apply HW in H2. inversion H2; subst. assumption. }
      rewrite dupdate_fresh; [| exact W | exact D1].
      apply IH. exists upds. split; [assumption |]. split; [assumption |].
      simpl. rewrite <- app_assoc. split; reflexivity.
Qed.

Lemma join_snoc n b l :
  String.concat "__" ((n ++ "__" ++ b)%string :: l) =
  String.concat "__" (n :: b :: l).
Proof.
  destruct l as [| c l]; simpl.
  - reflexivity.
  - rewrite !app_str_assoc. reflexivity.
Qed.

Lemma final_name_some fs : forall n, final_name (Some n) fs =
  Some (joined (n :: map (fun f => drop_yaml (basename f)) fs)).
Proof.
  induction fs as [| f fs IH]; intros n.
  - reflexivity.
  - cbn [final_name next_name]. rewrite IH. unfold joined. cbn [map].
    rewrite join_snoc. reflexivity.
Qed.

Lemma final_name_spec fs : fs <> [] ->
  final_name None fs =
  Some (joined (map (fun f => drop_yaml (basename f)) fs)).
Proof.
  destruct fs as [| f fs]; [congruence |]. intros _.
  cbn [final_name next_name]. rewrite final_name_some. reflexivity.
Qed.

Lemma after_slash_none s : ~ In "/"%char (list_ascii_of_string s) ->
  after_slash s = None.
Proof.
  induction s as [| c s IH]; intros H; [reflexivity |].
  simpl in *. rewrite IH by tauto.
  destruct (Ascii.eqb_spec c "/"); [subst; tauto | reflexivity].
Qed.

Lemma after_slash_app d s : ~ In "/"%char (list_ascii_of_string s) ->
  after_slash (d ++ String "/" s)%string = Some s.
Proof.
  intros H. induction d as [| c d IH]; simpl.
  - rewrite after_slash_none by exact H. reflexivity.
  - rewrite IH. reflexivity.
Qed.

Lemma drop_yaml_nodot c s : c <> "."%char ->
  drop_yaml (String c s) = String c (drop_yaml s).
Proof.
  intros H. destruct c as [b0 b1 b2 b3 b4 b5 b6 b7].
  destruct b0, b1, b2, b3, b4, b5, b6, b7; try reflexivity;
    exfalso; apply H; reflexivity.
Qed.

Lemma drop_yaml_stem s : ~ In "."%char (list_ascii_of_string s) ->
  drop_yaml (s ++ ".yaml")%string = s.
Proof.
  induction s as [| c s IH]; intros H; [reflexivity |].
  simpl in H. cbn [String.append]. rewrite drop_yaml_nodot.
  - rewrite IH by tauto. reflexivity.
  - intro. subst. tauto.
Qed.

Lemma stem_of f stem : yaml_path f stem -> drop_yaml (basename f) = stem.
Proof.
  intros (A & B & C). unfold basename.
  assert (S : ~ In "/"%char (list_ascii_of_string (stem ++ ".yaml"))).
  { rewrite chars_app. intro H. apply in_app_or in H.
    destruct H as [H | H]; [tauto |]. simpl in H.
    repeat (destruct H as [H | H]; [discriminate |]). destruct H. }
  destruct C as [-> | (d & ->)].
  - rewrite after_slash_none by exact S. apply drop_yaml_stem. exact B.
  - change ("/" ++ stem ++ ".yaml")%string with
      (String "/" (stem ++ ".yaml")%string).
    rewrite after_slash_app by exact S. apply drop_yaml_stem. exact B.
Qed.

Lemma drop_yaml_cases s :
  (exists r, s = (".yaml" ++ r)%string /\ drop_yaml s = drop_yaml r) \/
  (exists c r, s = String c r /\ drop_yaml s = String c (drop_yaml r) /\
     forall r', s <> (".yaml" ++ r')%string) \/ s = EmptyString.
Proof.
  destruct s as [| c r]; [auto |].
  destruct (ascii_dec c ".") as [-> | Hc].
  2:{ right. left. exists c, r. split; [reflexivity |].
      split; [apply drop_yaml_nodot; exact Hc |]. intros r' E. apply Hc.
      cbn in E. congruence. }
  destruct (string_dec (substring 0 4 r) "yaml") as [E | E].
  - left. destruct r as [| c1 [| c2 [| c3 [| c4 r]]]]; cbn in E;
      try discriminate.
    injection E as -> -> -> -> _. exists r. split; reflexivity.
  - right. left. exists "."%char, r. split; [reflexivity |].
    assert (N : forall r', String "." r <> (".yaml" ++ r')%string).
    { intros r' H. cbn in H. injection H as ->. apply E.
      cbn. destruct r'; reflexivity. }
    split; [| exact N].
    destruct r as [| c1 r]; [reflexivity |].
    destruct (ascii_dec c1 "y") as [-> | H1].
    2:{ destruct c1 as [b0 b1 b2 b3 b4 b5 b6 b7].
        destruct b0, b1, b2, b3, b4, b5, b6, b7; try reflexivity;
          exfalso; apply H1; reflexivity. }
    destruct r as [| c1 r]; [reflexivity |].
    destruct (ascii_dec c1 "a") as [-> | H1].
    2:{ destruct c1 as [b0 b1 b2 b3 b4 b5 b6 b7].
        destruct b0, b1, b2, b3, b4, b5, b6, b7; try reflexivity;
          exfalso; apply H1; reflexivity. }
    destruct r as [| c1 r]; [reflexivity |].
    destruct (ascii_dec c1 "m") as [-> | H1].
    2:{ destruct c1 as [b0 b1 b2 b3 b4 b5 b6 b7].
        destruct b0, b1, b2, b3, b4, b5, b6, b7; try reflexivity;
          exfalso; apply H1; reflexivity. }
    destruct r as [| c1 r]; [reflexivity |].
    destruct (ascii_dec c1 "l") as [-> | H1].
    2:{ destruct c1 as [b0 b1 b2 b3 b4 b5 b6 b7].
        destruct b0, b1, b2, b3, b4, b5, b6, b7; try reflexivity;
          exfalso; apply H1; reflexivity. }
    exfalso. apply (N r). reflexivity.
Qed.

Lemma concat_cons_char w c p l :
  String.concat w (String c p :: l) = String c (String.concat w (p :: l)).
Proof. destruct l; reflexivity. Qed.

Lemma contains_yaml_cons c p : contains ".yaml" (String c p) ->
  (exists r, String c p = (".yaml" ++ r)%string) \/ contains ".yaml" p.
Proof.
  intros ([| x a] & b & E).
  - left. exists b. exact E.
  - right. exists a, b. cbn [String.append] in E. injection E as _ E. exact E.
Qed.

Lemma drop_yaml_parts : forall n s, String.length s <= n -> exists parts,
  s = String.concat ".yaml" parts /\ drop_yaml s = String.concat "" parts /\
  parts <> [] /\ Forall (fun p => ~ contains ".yaml" p) parts.
Proof.
  assert (E0 : ~ contains ".yaml" "").
  { intros ([| x a] & b & E); discriminate. }
  induction n as [| n IH]; intros s L.
  - destruct s; [| cbn in L; lia]. exists [""%string].
    split; [reflexivity |]. split; [reflexivity |]. split; [discriminate |].
    constructor; [exact E0 | constructor].
  - destruct (drop_yaml_cases s) as
      [(r & -> & E) | [(c & r & -> & E & N) | ->]].
    + destruct (IH r) as (parts & A & B & C & D).
      { cbn in L. lia. }
      exists (""%string :: parts). split.
      * destruct parts as [| p parts]; [contradiction |].
        rewrite A at 1. reflexivity.
      * split; [| split; [discriminate | constructor; assumption]].
        rewrite E, B. destruct parts; [contradiction | reflexivity].
    + destruct (IH r) as (parts & A & B & C & D).
      { cbn in L. lia. }
      destruct parts as [| p parts]; [contradiction |].
      exists (String c p :: parts). rewrite !concat_cons_char.
      split; [rewrite <- A; reflexivity |].
      split; [rewrite E, B; reflexivity |]. split; [discriminate |].
      pose proof (Forall_inv D) as D1. pose proof (Forall_inv_tail D) as D2.
      constructor; [| exact D2].
      intro H. apply contains_yaml_cons in H. destruct H as [(r' & H) | H].
      * destruct parts as [| q parts].
        -- cbn in H. apply (N r'). cbn. rewrite A. exact H.
        -- apply (N (r' ++ ".yaml" ++ String.concat ".yaml" (q :: parts))%string).
           rewrite A.
           change (String.concat ".yaml" (p :: q :: parts)) with
             (p ++ ".yaml" ++ String.concat ".yaml" (q :: parts))%string.
           change (String c (p ++ ?x)) with (String c p ++ x)%string.
           rewrite H. cbn. reflexivity.
      * contradiction.
    + exists [""%string]. split; [reflexivity |]. split; [reflexivity |].
      split; [discriminate |]. constructor; [exact E0 | constructor].
Qed.

Lemma after_slash_spec s :
  match after_slash s with
  | Some t => (exists d, s = (d ++ "/" ++ t)%string) /\
      ~ In "/"%char (list_ascii_of_string t)
  | None => ~ In "/"%char (list_ascii_of_string s)
  end.
Proof.
  induction s as [| c r IH]; [intros [] |]. cbn [after_slash].
  destruct (after_slash r) as [t |].
  - destruct IH as [(d & ->) N]. split; [| exact N].
    exists (String c d). reflexivity.
  - destruct (Ascii.eqb_spec c "/") as [-> | Hc].
    + split; [exists ""%string; reflexivity | exact IH].
    + cbn. intros [H | H]; [congruence | contradiction].
Qed.

Lemma stem_of_any f : stem_of_path f (drop_yaml (basename f)).
Proof.
  destruct (drop_yaml_parts _ (basename f) (le_n _)) as (parts & A & B & C & D).
  exists (basename f), parts.
  pose proof (after_slash_spec f) as H. unfold basename in *.
  destruct (after_slash f) as [t |].
  - destruct H as [H1 H2]. repeat (split; [auto |]). assumption.
  - repeat (split; [auto |]). assumption.
Qed.

(** ** The unexpanded configuration *)

Section Raw.
  Variable tf_attr np_attr : string -> option value.
  Variable short_sha sha origin : string.
  Variable uncommitted : bool.
  Variable packages : value.
  Variable dir : string.

  Lemma raw_ok new name c :
    raw_config tf_attr np_attr short_sha sha origin uncommitted packages dir
      new name = Ok c <->
    exists p a b,
      last_value "float_precision" (defaults ++ new) = Some (VStr p) /\
      tf_attr p = Some a /\ np_attr p = Some b /\
      outcome (defaults ++ new ++
        automatic a b short_sha sha origin uncommitted packages
          (name_str name) dir) c.
  Proof.
    assert (O : outcome (defaults ++ new) (dupdate default_config new)).
    { apply outcome_dupdate. apply (outcome_dset [] []). apply outcome_nil. }
    set (c0 := dupdate default_config new) in *.
    assert (P : forall attr, precision attr c0 =
      match last_value "float_precision" (defaults ++ new) with
      | Some (VStr p) => match attr p with Some v => Ok v
                         | None => Err AttributeError end
      | Some _ => Err TypeError
      | None => Err KeyError
      end).
    { intros attr. unfold precision. rewrite (proj2 O). reflexivity. }
    assert (Q : forall attr v, precision attr (dset "tf_float_precision" v c0)
                               = precision attr c0).
    { intros attr v. unfold precision. rewrite dget_dset_other by discriminate.
      reflexivity. }
    assert (R : forall a b, outcome (defaults ++ new ++
        automatic a b short_sha sha origin uncommitted packages
          (name_str name) dir)
      (dset "egenerator_dir" (VStr dir)
      (dset "config_name" (VStr (name_str name))
      (dset "pip_installed_packages" packages
      (dset "git_uncommited_changes" (VBool uncommitted)
      (dset "git_origin" (VStr origin) (dset "git_sha" (VStr sha)
      (dset "git_short_sha" (VStr short_sha)
      (dset "np_float_precision" b (dset "tf_float_precision" a c0)))))))))).
    { intros a b.
      pose proof (fun l raw k v H => outcome_dset l raw k v H) as D.
      apply (D _ _ "tf_float_precision" a) in O.
      apply (D _ _ "np_float_precision" b) in O.
      apply (D _ _ "git_short_sha" (VStr short_sha)) in O.
      apply (D _ _ "git_sha" (VStr sha)) in O.
      apply (D _ _ "git_origin" (VStr origin)) in O.
      apply (D _ _ "git_uncommited_changes" (VBool uncommitted)) in O.
      apply (D _ _ "pip_installed_packages" packages) in O.
      apply (D _ _ "config_name" (VStr (name_str name))) in O.
      apply (D _ _ "egenerator_dir" (VStr dir)) in O.
      rewrite <- !app_assoc in O. exact O. }
    unfold raw_config. fold c0. rewrite P.
    destruct (last_value "float_precision" (defaults ++ new)) as [v |].
    2: { split; [discriminate | intros (p & a & b & E & _); discriminate]. }
    destruct v as [| | | p | | |];
      try (split; [discriminate | intros (p0 & a0 & b0 & E & _); discriminate]).
    destruct (tf_attr p) as [a |] eqn:TA.
    2: { split; [discriminate |].
         intros (p' & a & b & E & T & _). injection E as <-. congruence. }
    cbn [bind]. rewrite Q, P.
    destruct (np_attr p) as [b |] eqn:NA.
    2: { split; [discriminate |].
         intros (p' & a' & b & E & _ & T & _). injection E as <-. congruence. }
    cbn [bind]. split.
    - intros H. injection H as <-. exists p, a, b. repeat split; auto; apply R.
    - intros (p' & a' & b' & E & T & N & O'). injection E as <-.
      rewrite TA in T. injection T as <-. rewrite NA in N. injection N as <-.
      f_equal. eapply outcome_unique; [apply R | exact O'].
  Qed.
End Raw.

Lemma outcome_vwf l raw : Forall (fun kv => vwf (snd kv)) l ->
  outcome l raw -> dvwf raw.
Proof.
  intros HF [A B].
  assert (W : dwf raw). { unfold dwf, dkeys. rewrite A. apply uniq_nodup. }
  split; [exact W |]. apply Forall_forall. intros [k v] Hin. simpl.
  apply (In_dget k v raw W) in Hin. rewrite B in Hin. clear A B W.
  revert Hin. induction l as [| [k' w] l IH]; simpl; [discriminate |].
  inversion HF; subst. destruct (last_value k l) as [u |].
  - intros E. apply IH; assumption.
  - destruct (String.eqb k k'); [| discriminate].
    intros E. injection E as <-. assumption.
Qed.

(** ** Objects in memory *)

Scheme reads_mind := Induction for reads Sort Prop
  with entries_mind := Induction for reads_entries Sort Prop.

Section Heap.
  Definition copy_entries (n : nat) :=
    fix go (d : dict cell) (h : heap) : option (heap * dict cell) :=
      match d with
      | [] => Some (h, [])
      | (k, Plain v) :: d' =>
          match go d' h with
          | Some (h', e) => Some (h', (k, Plain v) :: e)
          | None => None
          end
      | (k, Ref b) :: d' =>
          match deepcopy n h b with
          | Some (h1, b') =>
              match go d' h1 with
              | Some (h2, e) => Some (h2, (k, Ref b') :: e)
              | None => None
              end
          | None => None
          end
      end.

  Lemma deepcopy_S n h a : deepcopy (S n) h a =
    match nth_error h a with
    | None => None
    | Some d => match copy_entries n d h with
                | Some (h', e) => Some (h' ++ [e], length h')
                | None => None
                end
    end.
  Proof. reflexivity. Qed.

  Lemma nth_ext {A} (h ext : list A) a d :
    nth_error h a = Some d -> nth_error (h ++ ext) a = Some d.
  Proof.
    intros H. rewrite nth_error_app1; [exact H |].
    apply nth_error_Some. congruence.
  Qed.

  Lemma reads_agree h h' a v : reads h a v ->
    (forall x, reach h a x -> nth_error h' x = nth_error h x) ->
    reads h' a v.
  Proof.
    intros H. revert a v H.
    apply (reads_mind h
      (fun a v _ => (forall x, reach h a x ->
         nth_error h' x = nth_error h x) -> reads h' a v)
      (fun d e _ => (forall k b x, In (k, Ref b) d -> reach h b x ->
         nth_error h' x = nth_error h x) -> reads_entries h' d e)).
    - intros a d e N R IH E. econstructor.
      + rewrite E by constructor. exact N.
      + apply IH. intros k b x A B. apply E.
        eapply reach_step; eassumption.
    - intros _. constructor.
    - intros k v d e R IH E. constructor. apply IH.
      intros k' b x A B. apply (E k' b x); [right; exact A | exact B].
    - intros k b v d e R IH1 R2 IH2 E. constructor.
      + apply IH1. intros x X. apply (E k b x); [left; reflexivity | exact X].
      + apply IH2. intros k' b' x A B.
        apply (E k' b' x); [right; exact A | exact B].
  Qed.

  Lemma reach_bound h a x : closed_heap h -> a < length h ->
    reach h a x -> x < length h.
  Proof.
    intros HC Ha R. induction R; [exact Ha |].
    apply IHR. eapply HC; eassumption.
  Qed.

  Lemma reads_bound h a v : reads h a v -> a < length h.
  Proof.
    intros H. inversion H; subst. apply nth_error_Some. congruence.
  Qed.

  Lemma reads_ext h ext a v : reads h a v -> reads (h ++ ext) a v.
  Proof.
    intros H. revert a v H.
    apply (reads_mind h (fun a v _ => reads (h ++ ext) a v)
             (fun d e _ => reads_entries (h ++ ext) d e)).
    - intros a d e N R IH. econstructor; [apply nth_ext; exact N | exact IH].
    - constructor.
    - intros. constructor. assumption.
    - intros. constructor; assumption.
  Qed.

  Lemma entries_ext h ext d e :
    reads_entries h d e -> reads_entries (h ++ ext) d e.
  Proof.
    induction 1; constructor; try assumption. apply reads_ext. assumption.
  Qed.

  Lemma reads_old h ext a v : closed_heap h -> a < length h ->
    reads (h ++ ext) a v -> reads h a v.
  Proof.
    intros HC Ha H. eapply reads_agree; [exact H |].
    assert (K : forall y, reach (h ++ ext) a y -> y < length h).
    { intros y R. clear H v. revert Ha.
      induction R; intros Ha; [exact Ha |].
      apply IHR. rewrite nth_error_app1 in H by exact Ha.
      eapply HC; eassumption. }
    intros x R. rewrite nth_error_app1; [reflexivity | apply K; exact R].
  Qed.

  Lemma entries_old h ext d e : closed_heap h ->
    (forall k b, In (k, Ref b) d -> b < length h) ->
    reads_entries (h ++ ext) d e -> reads_entries h d e.
  Proof.
    intros HC HB H. induction H.
    - constructor.
    - constructor. apply IHreads_entries. intros k' b A.
      apply (HB k' b). right. exact A.
    - constructor.
      + eapply reads_old; [exact HC | | eassumption].
        apply (HB k b). left. reflexivity.
      + apply IHreads_entries. intros k' b' A.
        apply (HB k' b'). right. exact A.
  Qed.

  Lemma reads_fun h a v : reads h a v -> forall w, reads h a w -> v = w.
  Proof.
    intros H. revert a v H.
    apply (reads_mind h (fun a v _ => forall w, reads h a w -> v = w)
             (fun d e _ => forall e', reads_entries h d e' -> e = e')).
    - intros a d e N R IH w H. inversion H; subst.
      rewrite N in H0. injection H0 as <-. f_equal. apply IH. assumption.
    - intros e' H. inversion H; subst. reflexivity.
    - intros k v d e R IH e' H. inversion H; subst. f_equal. apply IH.
      assumption.
    - intros k b v d e R1 IH1 R2 IH2 e' H. inversion H; subst.
      f_equal; [f_equal; apply IH1; assumption | apply IH2; assumption].
  Qed.

  (** References from objects at [m] and above stay at [m] and above. *)
  Definition fresh_from (m : nat) (h : heap) : Prop :=
    forall x d k c, m <= x -> nth_error h x = Some d -> In (k, Ref c) d ->
      m <= c < length h.

  Lemma closed_ext h h' ext : closed_heap h -> h' = h ++ ext ->
    fresh_from (length h) h' -> closed_heap h'.
  Proof.
    intros HC -> HF a d k b N Hin.
    destruct (Nat.lt_ge_cases a (length h)) as [L | L].
    - rewrite nth_error_app1 in N by exact L.
      rewrite app_length. pose proof (HC a d k b N Hin). lia.
    - apply (HF a d k b L N Hin).
  Qed.

  Lemma fresh_trans m m' h h' ext : m <= m' -> m' = length h ->
    h' = h ++ ext -> fresh_from m h -> fresh_from m' h' -> fresh_from m h'.
  Proof.
    intros Hm -> -> A B x d k c Hx N Hin.
    destruct (Nat.lt_ge_cases x (length h)) as [L | L].
    - rewrite nth_error_app1 in N by exact L.
      pose proof (A x d k c Hx N Hin). rewrite app_length. lia.
    - pose proof (B x d k c L N Hin). lia.
  Qed.

  Definition copy_good (n : nat) : Prop :=
    forall h a h' b, closed_heap h -> deepcopy n h a = Some (h', b) ->
      exists ext, h' = h ++ ext /\ length h <= b < length h' /\
        fresh_from (length h) h' /\
        exists v, reads h a v /\ reads h' b v.

  Lemma copy_entries_good n : copy_good n ->
    forall d h h' e, closed_heap h ->
      (forall k b, In (k, Ref b) d -> b < length h) ->
      copy_entries n d h = Some (h', e) ->
      exists ext, h' = h ++ ext /\
        (forall k b, In (k, Ref b) e -> length h <= b < length h') /\
        fresh_from (length h) h' /\
        exists l, reads_entries h d l /\ reads_entries h' e l.
  Proof.
    intros HG. induction d as [| [k c] d IH]; intros h h' e HC HB H.
    - simpl in H. injection H as <- <-. exists [].
      rewrite app_nil_r. split; [reflexivity |].
      split; [intros k b [] |]. split.
      + intros x d k c Hx N. exfalso. apply nth_error_None in Hx. congruence.
      + exists []. split; constructor.
    - destruct c as [v | b].
      + cbn [copy_entries] in H.
        destruct (copy_entries n d h) as [[h1 e1] |] eqn:E; [| discriminate].
        injection H as <- <-.
        apply IH in E; [| exact HC | intros k' b A; apply (HB k' b); right; exact A].
        destruct E as (ext & -> & A & B & l & L1 & L2).
        exists ext. split; [reflexivity |]. split.
        * intros k' b [X | X]; [discriminate | apply (A k' b X)].
        * split; [exact B |]. exists ((k, v) :: l).
          split; constructor; assumption.
      + cbn [copy_entries] in H.
        destruct (deepcopy n h b) as [[h1 b1] |] eqn:E1; [| discriminate].
        destruct (copy_entries n d h1) as [[h2 e2] |] eqn:E2;
          [| discriminate].
        injection H as <- <-.
        apply HG in E1; [| exact HC].
        destruct E1 as (ext1 & Eh1 & B1 & F1 & v & V1 & V2).
        assert (HC1 : closed_heap h1) by (eapply closed_ext; eassumption).
        assert (L1 : length h1 = length h + length ext1)
          by (rewrite Eh1; apply app_length).
        apply IH in E2; [| exact HC1 |].
        2: { intros k' b' X. pose proof (HB k' b' (or_intror X)). lia. }
        destruct E2 as (ext2 & Eh2 & B2 & F2 & l & V3 & V4).
        assert (L2 : length h2 = length h1 + length ext2)
          by (rewrite Eh2; apply app_length).
        exists (ext1 ++ ext2). split; [subst; rewrite app_assoc; reflexivity |].
        split; [| split].
        * intros k' b' [X | X].
          -- injection X as <- <-. lia.
          -- pose proof (B2 k' b' X). lia.
        * eapply fresh_trans; [| reflexivity | exact Eh2 | exact F1 | exact F2].
          lia.
        * exists ((k, v) :: l). split.
          -- constructor; [exact V1 |].
             rewrite Eh1 in V3. eapply entries_old; [exact HC | | exact V3].
             intros k' b' X. apply (HB k' b'). right. exact X.
          -- constructor; [| exact V4]. rewrite Eh2. apply reads_ext.
             exact V2.
  Qed.

  Lemma fresh_snoc m h e : m <= length h -> fresh_from m h ->
    (forall k b, In (k, Ref b) e -> m <= b < length h) ->
    fresh_from m (h ++ [e]).
  Proof.
    intros Hm HF HE x d k c Hx N Hin. rewrite app_length. simpl.
    destruct (Nat.lt_ge_cases x (length h)) as [L | L].
    - rewrite nth_error_app1 in N by exact L.
      pose proof (HF x d k c Hx N Hin). lia.
    - rewrite nth_error_app2 in N by exact L.
      destruct (x - length h) as [| y]; simpl in N.
      + injection N as <-. pose proof (HE k c Hin). lia.
      + destruct y; discriminate.
  Qed.

  Lemma reads_last h e l : reads_entries h e l ->
    reads (h ++ [e]) (length h) (VDict l).
  Proof.
    intros H. econstructor.
    - rewrite nth_error_app2 by lia. rewrite Nat.sub_diag. reflexivity.
    - apply entries_ext. exact H.
  Qed.

  Lemma deepcopy_good n : copy_good n.
  Proof.
    induction n as [| n IH]; intros h a h' b HC H; [discriminate |].
    rewrite deepcopy_S in H.
    destruct (nth_error h a) as [d |] eqn:N; [| discriminate].
    destruct (copy_entries n d h) as [[h1 e] |] eqn:E; [| discriminate].
    injection H as <- <-.
    apply (copy_entries_good n IH) in E; [| exact HC |].
    2: { intros k b X. eapply HC; eassumption. }
    destruct E as (ext & -> & A & B & l & L1 & L2).
    exists (ext ++ [e]). split; [rewrite app_assoc; reflexivity |].
    split; [rewrite !app_length; simpl; lia |]. split.
    - apply fresh_snoc; [rewrite app_length; lia | exact B | exact A].
    - exists (VDict l). split.
      + econstructor; eassumption.
      + apply reads_last. exact L2.
  Qed.

  Lemma get_config_good n h a h' b : closed_heap h ->
    get_config n h a = Some (h', b) ->
    exists ext, h' = h ++ ext /\ length h <= b < length h' /\
      fresh_from (length h) h' /\
      exists v, reads h a v /\ reads h' b v.
  Proof.
    intros HC H. unfold get_config in H.
    destruct (deepcopy n h a) as [[h1 b1] |] eqn:E; [| discriminate].
    destruct (nth_error h1 b1) as [d |] eqn:N; [| discriminate].
    injection H as <- <-.
    apply deepcopy_good in E; [| exact HC].
    destruct E as (ext & -> & A & B & v & V1 & V2).
    exists (ext ++ [d]). split; [rewrite app_assoc; reflexivity |].
    split; [rewrite !app_length; simpl; lia |]. split.
    - apply fresh_snoc; [rewrite app_length; lia | exact B |].
      intros k c X. apply (B b1 d k c); [lia | exact N | exact X].
    - exists v. split; [exact V1 |].
      inversion V2; subst. rewrite N in H. injection H as <-.
      apply reads_last. assumption.
  Qed.

  (** Enough steps exist. *)
  Lemma copy_mono n : forall h a r, deepcopy n h a = Some r ->
    deepcopy (S n) h a = Some r.
  Proof.
    induction n as [| n IH]; intros h a r H; [discriminate |].
    assert (K : forall d h r, copy_entries n d h = Some r ->
              copy_entries (S n) d h = Some r).
    { induction d as [| [k c] d IHd]; intros h0 r0 H0; [exact H0 |].
      destruct c as [v | b]; cbn [copy_entries] in *.
      - destruct (copy_entries n d h0) as [[h1 e] |] eqn:E; [| discriminate].
        rewrite (IHd _ _ E). exact H0.
      - destruct (deepcopy n h0 b) as [[h1 b1] |] eqn:E1; [| discriminate].
        rewrite (IH _ _ _ E1).
        destruct (copy_entries n d h1) as [[h2 e] |] eqn:E2; [| discriminate].
        rewrite (IHd _ _ E2). exact H0. }
    rewrite deepcopy_S in H. rewrite deepcopy_S.
    destruct (nth_error h a) as [d |]; [| discriminate].
    destruct (copy_entries n d h) as [[h1 e] |] eqn:E; [| discriminate].
    rewrite (K _ _ _ E). exact H.
  Qed.

  Lemma copy_le n m h a r : n <= m -> deepcopy n h a = Some r ->
    deepcopy m h a = Some r.
  Proof.
    induction 1; intros H0; [exact H0 |]. apply copy_mono. auto.
  Qed.

  Lemma entries_mono n m d : n <= m -> forall h r,
    copy_entries n d h = Some r -> copy_entries m d h = Some r.
  Proof.
    intros L. induction d as [| [k c] d IH]; intros h r H; [exact H |].
    destruct c as [v | b]; cbn [copy_entries] in *.
    - destruct (copy_entries n d h) as [[h1 e] |] eqn:E; [| discriminate].
      rewrite (IH _ _ E). exact H.
    - destruct (deepcopy n h b) as [[h1 b1] |] eqn:E1; [| discriminate].
      rewrite (copy_le n m h b _ L E1).
      destruct (copy_entries n d h1) as [[h2 e] |] eqn:E2; [| discriminate].
      rewrite (IH _ _ E2). exact H.
  Qed.

  Lemma deepcopy_total h a v : closed_heap h -> reads h a v ->
    exists n, forall h' ext, h' = h ++ ext -> closed_heap h' ->
      exists r, deepcopy n h' a = Some r.
  Proof.
    intros HC H. revert a v H.
    apply (reads_mind h
      (fun a v _ => exists n, forall h' ext, h' = h ++ ext ->
         closed_heap h' -> exists r, deepcopy n h' a = Some r)
      (fun d e _ => (forall k b, In (k, Ref b) d -> b < length h) ->
         exists n, forall h' ext, h' = h ++ ext -> closed_heap h' ->
         exists r, copy_entries n d h' = Some r)).
    - intros a d e N R IH.
      destruct IH as (n & IH). { intros k b X. eapply HC; eassumption. }
      exists (S n). intros h' ext E HC'.
      rewrite deepcopy_S. subst h'. rewrite (nth_ext h ext a d N).
      destruct (IH (h ++ ext) ext eq_refl HC') as ([h1 e1] & ->).
      eexists. reflexivity.
    - intros _. exists 0. intros. eexists. reflexivity.
    - intros k v d e R IH HB.
      destruct IH as (n & IH). { intros k' b X. apply (HB k' b). right. exact X. }
      exists n. intros h' ext E HC'. cbn [copy_entries].
      destruct (IH h' ext E HC') as ([h1 e1] & ->). eexists. reflexivity.
    - intros k b v d e R1 (n1 & IH1) R2 IH2 HB.
      destruct IH2 as (n2 & IH2).
      { intros k' b' X. apply (HB k' b'). right. exact X. }
      exists (Nat.max n1 n2). intros h' ext E HC'. cbn [copy_entries].
      destruct (IH1 h' ext E HC') as ([h1 b1] & C1).
      pose proof (copy_le n1 (Nat.max n1 n2) h' b _ (Nat.le_max_l n1 n2) C1)
        as C1'.
      rewrite C1'.
      destruct (deepcopy_good _ h' b h1 b1 HC' C1) as (x & Ex & _ & F & _).
      assert (HC1 : closed_heap h1) by (eapply closed_ext; eassumption).
      destruct (IH2 h1 (ext ++ x)) as ([h2 e2] & C2).
      + subst. rewrite app_assoc. reflexivity.
      + exact HC1.
      + rewrite (entries_mono n2 (Nat.max n1 n2) d (Nat.le_max_r n1 n2) _ _ C2).
        eexists. reflexivity.
  Qed.
End Heap.
