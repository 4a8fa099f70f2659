(** Lemmas on the weights of models made of models. *)
From Coq Require Import Permutation.
From Verif Require Import Py PyStr PyStrFacts M_Checkpoint S_Checkpoint L_Checkpoint T_Checkpoint M_Weights S_Weights.

Section Lemmas.
Variable V : Type.
Variable df : nat -> bool.
Implicit Types (c : comp V) (m : manager V) (d : disk V) (t : trace V).

Lemma comp_ind2 (P : comp V -> Prop) :
  (forall ok v s, P (Source ok v s)) -> P Other ->
  (forall st subs, (forall n c, In (n, c) subs -> P c) -> P (Multi st subs)) -> forall c, P c.
Proof.
  intros H1 H2 H3. fix IH 1. intros [ok v s|st subs|]; [apply H1| |apply H2]. apply H3.
  induction subs as [|[n c] subs IHs]; intros n' c' H; [destruct H|]. destruct H as [E|H]; [injection E as _ <-; apply IH|exact (IHs _ _ H)].
Qed.

(** ** The sources of a component, in order *)

Definition leaf := (bool * V * nat)%type.

Fixpoint flat (c : comp V) : list (path * leaf) :=
  match c with
  | Source ok v s => [([], (ok, v, s))]
  | Multi _ subs => flat_map (fun ns => map (fun x : path * leaf => (fst ns :: fst x, snd x)) (flat (snd ns))) subs
  | Other => []
  end.

Definition flatm (m : manager V) : list (path * leaf) :=
  flat_map (fun ns => map (fun x : path * leaf => (fst ns :: fst x, snd x)) (flat (snd ns))) m.

Lemma in_flat c q ok v s : In (q, (ok, v, s)) (flat c) <-> Leaf c q ok v s.
Proof.
  revert q. induction c as [ok' v' s'| |st subs IH] using comp_ind2; intros q; cbn [flat].
  - split; [intros [E|[]]; injection E as <- <- <- <-; constructor|inversion 1; subst; left; reflexivity].
  - split; [intros []|inversion 1].
  - rewrite in_flat_map. split.
    + intros ([n c] & Hn & H). apply in_map_iff in H. destruct H as ([q' x] & E & H). cbn in E, H. injection E as <- ->.
      apply (IH _ _ Hn) in H. econstructor; eassumption.
    + inversion 1 as [|st' subs' n c q' ok' v' s' Hn HL]; subst. exists (n, c). split; [exact Hn|]. apply in_map_iff.
      exists (q', (ok, v, s)). split; [reflexivity|]. apply (IH _ _ Hn). exact HL.
Qed.

Lemma in_flatm m q ok v s : In (q, (ok, v, s)) (flatm m) <-> Holds m q ok v s.
Proof.
  unfold flatm, Holds. rewrite in_flat_map. split.
  - intros ([n c] & Hn & H). apply in_map_iff in H. destruct H as ([q' x] & E & H). cbn in E, H. injection E as <- ->.
    exists n, c, q'. split; [reflexivity|]. split; [exact Hn|]. apply in_flat. exact H.
  - intros (n & c & q' & -> & Hn & HL). exists (n, c). split; [exact Hn|]. apply in_map_iff. exists (q', (ok, v, s)).
    split; [reflexivity|]. apply in_flat. exact HL.
Qed.

Lemma nodup_pieces (l : list (string * comp V)) : NoDup (map fst l) ->
  (forall n c, In (n, c) l -> NoDup (map fst (flat c))) ->
  NoDup (map fst (flat_map (fun ns => map (fun x : path * leaf => (fst ns :: fst x, snd x)) (flat (snd ns))) l)).
Proof.
  induction l as [|[n c] l IH]; intros HN H; [constructor|]. cbn [flat_map fst snd]. rewrite map_app, map_map. cbn [fst].
  inversion HN as [|x l' Hx HN']; subst.
  assert (HA : NoDup (map (fun x : path * leaf => n :: fst x) (flat c))).
  { rewrite <- (map_map fst (cons n)). apply FinFun.Injective_map_NoDup; [intros a b E; injection E as ->; reflexivity|]. apply (H n c). left. reflexivity. }
  assert (HB : NoDup (map fst (flat_map (fun ns => map (fun x : path * leaf => (fst ns :: fst x, snd x)) (flat (snd ns))) l))).
  { apply IH; [exact HN'|]. intros n' c' Hc. apply (H n' c'). right. exact Hc. }
  revert HA. generalize (flat c) as k. induction k as [|[q x] k IHk]; intros HA; [exact HB|]. cbn [map app fst] in *.
  inversion HA as [|y k' Hy HA']; subst. constructor; [|apply IHk; exact HA']. intros HI. apply in_app_iff in HI. destruct HI as [HI|HI]; [exact (Hy HI)|].
  apply in_map_iff in HI. destruct HI as ([p' z] & Ep & HI). cbn in Ep. subst p'. apply in_flat_map in HI. destruct HI as ([n' c'] & Hn' & HI).
  apply in_map_iff in HI. destruct HI as ([q' z'] & E & _). cbn in E. injection E as -> _ _. apply Hx. apply in_map_iff. exists (n, c'). auto.
Qed.

Lemma nodup_flat c : Named c -> NoDup (map fst (flat c)).
Proof.
  induction c as [ok' v' s'| |st subs IH] using comp_ind2; intros H; cbn [flat]; [repeat constructor; intros []|constructor|].
  inversion H as [| |st' subs' HN HS]; subst. apply nodup_pieces; [exact HN|]. intros n c Hc. apply (IH n c Hc). apply (HS n c Hc).
Qed.

Lemma nodup_flatm m : Keys m -> NoDup (map fst (flatm m)).
Proof. intros [HN HS]. apply nodup_pieces; [exact HN|]. intros n c Hc. apply nodup_flat. apply (HS n c Hc). Qed.

Lemma map_cons_fst n (l : list (path * leaf)) : map (fun x => n :: fst x) l = map (cons n) (map fst l).
Proof. symmetry. apply map_map. Qed.

(** Sources of alike managers. *)
Lemma flat_like c c' : Like c c' -> map fst (flat c) = map fst (flat c').
Proof.
  revert c'. induction c as [ok' v' s'| |st subs IH] using comp_ind2; intros c' H; inversion H; subst; try reflexivity. cbn [flat].
  clear H. match goal with H : Forall2 _ _ _ |- _ => revert IH; induction H as [|[n c] [n' c'] l l' [E HL] HF IHF]; intros IH end; [reflexivity|].
  cbn [fst snd] in *. subst n'. cbn [flat_map fst snd]. rewrite !map_app, !map_map. cbn [fst]. f_equal.
  - rewrite !map_cons_fst. f_equal. apply (IH n c); [left; reflexivity|exact HL].
  - apply IHF. intros n1 c1 H1. apply (IH n1 c1). right. exact H1.
Qed.

Lemma flatm_alike m m' : Alike m m' -> map fst (flatm m) = map fst (flatm m').
Proof.
  unfold Alike, flatm. induction 1 as [|[n c] [n' c'] l l' [E HL] HF IHF]; [reflexivity|]. cbn [fst snd] in *. subst n'.
  cbn [flat_map fst snd]. rewrite !map_app, !map_map. cbn [fst]. f_equal; [|exact IHF].
  rewrite !map_cons_fst. f_equal. apply flat_like. exact HL.
Qed.

Lemma like_refl c : Like c c.
Proof.
  induction c as [ok' v' s'| |st' l' IH'] using comp_ind2; constructor. induction l' as [|[n0 c0] l' IHl]; constructor.
  - split; [reflexivity|]. apply (IH' n0 c0). left. reflexivity.
  - apply IHl. intros n1 c1 H1. apply (IH' n1 c1). right. exact H1.
Qed.

Lemma alike_refl m : Alike m m.
Proof. induction m as [|[n c] m IH]; constructor; [split; [reflexivity|apply like_refl]|exact IH]. Qed.

Lemma like_named c c' : Like c c' -> Named c -> Named c'.
Proof.
  revert c'. induction c as [ok' v' s'| |st subs IH] using comp_ind2; intros c' H HN; inversion H as [ok1 v1 s1 ok2 v2 s2| |st1 st2 l1 l2 H1]; subst; try constructor.
  - inversion HN as [| |st3 subs3 HD _]; subst. clear - H1 HD. revert HD. replace (map fst l2) with (map fst subs); [auto|].
    induction H1 as [|a b l l' [E _] _ IH]; [reflexivity|]. cbn. rewrite E, IH. reflexivity.
  - intros n c0 Hc. inversion HN as [| |st3 subs3 _ HC]; subst. clear H HN. revert IH HC.
    induction H1 as [|[n1 c1] [n2 c2] l l' [E HL] HF IHF]; intros IH HC; [destruct Hc|]. cbn in E, HL. subst n2. destruct Hc as [Hc|Hc].
    + injection Hc as -> ->. apply (IH n c1); [left; reflexivity|exact HL|]. apply (HC n c1). left. reflexivity.
    + apply IHF; [exact Hc|intros n3 c3 H3; apply (IH n3 c3); right; exact H3|intros n3 c3 H3; apply (HC n3 c3); right; exact H3].
Qed.

Lemma alike_keys m m' : Alike m m' -> Keys m -> Keys m'.
Proof.
  intros HA [HD HC]. split.
  - replace (map fst m') with (map fst m); [exact HD|]. clear - HA. induction HA as [|a b l l' [E _] _ IH]; [reflexivity|]. cbn. rewrite E, IH. reflexivity.
  - intros n c Hc. clear HD. induction HA as [|[n1 c1] [n2 c2] l l' [E HL] HF IHF]; [destruct Hc|]. cbn in E, HL. subst n2. destruct Hc as [Hc|Hc].
    + injection Hc as -> ->. apply (like_named c1 c HL). apply (HC n c1). left. reflexivity.
    + apply IHF; [intros n3 c3 H3; apply (HC n3 c3); right; exact H3|exact Hc].
Qed.

Lemma like_plain c c' : Like c c' -> Plain c -> Plain c'.
Proof.
  revert c'. induction c as [ok' v' s'| |st subs IH] using comp_ind2; intros c' H HN; inversion H as [ok1 v1 s1 ok2 v2 s2| |st1 st2 l1 l2 H1]; subst; try constructor.
  intros n c0 Hc. inversion HN as [| |st3 subs3 HC]; subst. clear H HN. revert IH HC.
  induction H1 as [|[n1 c1] [n2 c2] l l' [E HL] HF IHF]; intros IH HC; [destruct Hc|]. cbn in E, HL. subst n2. destruct Hc as [Hc|Hc].
  - injection Hc as -> ->. destruct (HC n c1) as [HB HP]; [left; reflexivity|]. split; [exact HB|]. apply (IH n c1); [left; reflexivity|exact HL|exact HP].
  - apply IHF; [exact Hc|intros n3 c3 H3; apply (IH n3 c3); right; exact H3|intros n3 c3 H3; apply (HC n3 c3); right; exact H3].
Qed.

Lemma alike_plain m m' : Alike m m' -> PlainNames m -> PlainNames m'.
Proof.
  intros HA HC n c Hc. induction HA as [|[n1 c1] [n2 c2] l l' [E HL] HF IHF]; [destruct Hc|]. cbn in E, HL. subst n2. destruct Hc as [Hc|Hc].
  - injection Hc as -> ->. destruct (HC n c1) as [HB HP]; [left; reflexivity|]. split; [exact HB|]. apply (like_plain c1 c HL HP).
  - apply IHF; [intros n3 c3 H3; apply (HC n3 c3); right; exact H3|exact Hc].
Qed.

Scheme order_mut := Induction for Order Sort Prop with inorder_mut := Induction for InOrder Sort Prop.

Lemma order_flat c : Order c (map fst (flat c)).
Proof.
  induction c as [ok v s| |st subs IH] using comp_ind2; cbn [flat map fst]; constructor.
  induction subs as [|[n c] subs IHs]; [constructor|]. cbn [flat_map fst snd]. rewrite map_app, map_map. cbn [fst]. rewrite map_cons_fst.
  constructor; [apply (IH n c); left; reflexivity|]. apply IHs. intros n' c' H. apply (IH n' c'). right. exact H.
Qed.

Lemma inorder_flatm m : InOrder m (map fst (flatm m)).
Proof.
  induction m as [|[n c] m IH]; [constructor|]. cbn [flatm flat_map fst snd]. rewrite map_app, map_map. cbn [fst]. rewrite map_cons_fst.
  constructor; [apply order_flat|exact IH].
Qed.

Lemma inorder_unique m l : InOrder m l -> l = map fst (flatm m).
Proof.
  revert m l. apply (inorder_mut V (fun c l _ => l = map fst (flat c)) (fun m l _ => l = map fst (flatm m))).
  - reflexivity.
  - reflexivity.
  - intros st subs l _ H. exact H.
  - reflexivity.
  - intros n c l a b _ -> _ ->. unfold flatm. cbn [flat_map fst snd]. rewrite map_app. f_equal. rewrite !map_map. reflexivity.
Qed.

(** ** Effects *)

Lemma play_app t t' d : play (t ++ t') d = play t' (play t d).
Proof. apply fold_left_app. Qed.

Lemma path_eqb_eq p q : path_eqb p q = true <-> p = q.
Proof. unfold path_eqb. destruct (list_eq_dec string_dec p q); split; congruence. Qed.

Lemma play_at p ops d q : play (map (fun o => (p, o)) ops) d q = if path_eqb q p then run ops (d q) else d q.
Proof.
  revert d. induction ops as [|o ops IH]; intros d; [cbn; destruct (path_eqb q p); reflexivity|]. cbn [map]. change (play ((p, o) :: map (fun o => (p, o)) ops) d) with (play (map (fun o => (p, o)) ops) (step_disk d (p, o))).
  rewrite IH. unfold step_disk. cbn [fst snd]. destruct (path_eqb q p); reflexivity.
Qed.

Lemma play_at_same p ops d : play (map (fun o => (p, o)) ops) d p = run ops (d p).
Proof. rewrite play_at. assert (E : path_eqb p p = true) by (apply path_eqb_eq; reflexivity). rewrite E. reflexivity. Qed.

Lemma play_at_other p ops d q : q <> p -> play (map (fun o => (p, o)) ops) d q = d q.
Proof. intros H. rewrite play_at. destruct (path_eqb q p) eqn:E; [apply path_eqb_eq in E; contradiction|reflexivity]. Qed.

(** Effects of one source after the other. *)
Definition action := leaf -> dir (V * nat) -> effect (V * nat).

Fixpoint seqn (f : action) (p : path) (l : list (path * leaf)) : disk V -> outcome V :=
  match l with
  | [] => fun _ => ([], None)
  | x :: l' => andthen (fun d => at_path (p ++ fst x) (f (snd x) (d (p ++ fst x)))) (seqn f p l')
  end.

Lemma andthen_ext (a a' b b' : disk V -> outcome V) d : (forall d, a d = a' d) -> (forall d, b d = b' d) -> andthen a b d = andthen a' b' d.
Proof. intros Ha Hb. unfold andthen. rewrite Ha. destruct (a' d) as [t [e|]]; [reflexivity|]. rewrite Hb. reflexivity. Qed.

Lemma andthen_assoc (a b k : disk V -> outcome V) d : andthen (andthen a b) k d = andthen a (andthen b k) d.
Proof.
  unfold andthen. destruct (a d) as [t [e|]]; [reflexivity|]. destruct (b (play t d)) as [t' [e|]]; [reflexivity|].
  rewrite play_app. destruct (k (play t' (play t d))) as [t2 e2]. rewrite app_assoc. reflexivity.
Qed.

Lemma seqn_app f p l l' d : seqn f p (l ++ l') d = andthen (seqn f p l) (seqn f p l') d.
Proof.
  revert d. induction l as [|x l IH]; intros d.
  - cbn [app seqn]. unfold andthen. cbn. destruct (seqn f p l' d); reflexivity.
  - cbn [app seqn]. rewrite andthen_assoc. apply andthen_ext; [reflexivity|]. exact IH.
Qed.

Lemma seqn_sub f p n l d : seqn f (p ++ [n]) l d = seqn f p (map (fun x : path * leaf => (n :: fst x, snd x)) l) d.
Proof.
  revert d. induction l as [|x l IH]; intros d; [reflexivity|]. cbn [map seqn fst snd]. apply andthen_ext; [|exact IH].
  intros d'. rewrite <- app_assoc. reflexivity.
Qed.

Definition save1 (a : args) : action := fun x D =>
  M_Checkpoint.save_weights df D (fst (fst x)) (a_keep a) (a_prot a) (a_desc a) (a_steps a) (snd (fst x), snd x).
Definition saveT (a : args) (tr : training) : action := fun x D =>
  M_Checkpoint.save df D (fst (fst x)) (a_keep a) (a_prot a) (a_desc a) tr (a_steps a) (snd (fst x), snd x).

Lemma andthen_nil (b : disk V -> outcome V) d : andthen (fun d => ([], None)) b d = b d.
Proof. unfold andthen. cbn. destruct (b d); reflexivity. Qed.

Lemma andthen_stop (b : disk V -> outcome V) d : andthen b (fun d => ([], None)) d = b d.
Proof. unfold andthen. destruct (b d) as [t [e|]]; [reflexivity|]. rewrite app_nil_r. reflexivity. Qed.

Lemma save_weights_flat a c p d : save_weights df p a c d = seqn (save1 a) p (flat c) d.
Proof.
  revert p d. induction c as [ok v s| |st subs IH] using comp_ind2; intros p d; cbn [save_weights flat seqn].
  - rewrite andthen_stop. cbn [fst snd]. rewrite app_nil_r. reflexivity.
  - reflexivity.
  - revert d. induction subs as [|[n c] subs IHs]; intros d; [reflexivity|]. cbn [flat_map fst snd]. rewrite seqn_app.
    apply andthen_ext; [intros d'; rewrite <- seqn_sub; apply (IH n c); left; reflexivity|]. intros d'. apply IHs. intros n' c' H. apply (IH n' c'). right. exact H.
Qed.

Lemma manager_save_weights_flat a m p d : manager_save_weights df p a m d = seqn (save1 a) p (flatm m) d.
Proof.
  revert d. induction m as [|[n c] m IH]; intros d; [reflexivity|]. cbn [manager_save_weights flatm flat_map fst snd]. rewrite seqn_app.
  apply andthen_ext; [|exact IH]. intros d'. rewrite save_weights_flat. apply seqn_sub.
Qed.

Lemma splitext_snoc_bare p n : Bare n -> splitext_path (p ++ [n]) = p ++ [n].
Proof. intros H. rewrite splitext_path_snoc, H. reflexivity. Qed.

Lemma save_flat a tr c p d : Plain c -> splitext_path p = p -> save df p a tr c d = seqn (saveT a tr) p (flat c) d.
Proof.
  revert p d. induction c as [ok v s| |st subs IH] using comp_ind2; intros p d HP Hp; cbn [save flat seqn]; rewrite ?Hp.
  - rewrite andthen_stop. cbn [fst snd]. rewrite app_nil_r. reflexivity.
  - reflexivity.
  - inversion HP as [| |st' subs' HS]; subst. clear HP. revert d. induction subs as [|[n c] subs IHs]; intros d; [reflexivity|]. cbn [flat_map fst snd]. rewrite seqn_app.
    destruct (HS n c) as [HB HC]; [left; reflexivity|].
    apply andthen_ext; [intros d'; rewrite <- seqn_sub; apply (IH n c); [left; reflexivity|exact HC|apply splitext_snoc_bare; exact HB]|].
    intros d'. apply IHs; [intros n' c' H; apply (IH n' c'); right; exact H|intros n' c' H; apply (HS n' c'); right; exact H].
Qed.

Lemma manager_save_flat a tr m p d : PlainNames m -> splitext_path p = p -> manager_save df p a tr m d = seqn (saveT a tr) p (flatm m) d.
Proof.
  intros HP Hp. unfold manager_save. rewrite Hp. revert d. induction m as [|[n c] m IH]; intros d; [reflexivity|].
  cbn [save_each flatm flat_map fst snd]. rewrite seqn_app. destruct (HP n c) as [HB HC]; [left; reflexivity|].
  apply andthen_ext; [|apply IH; intros n' c' H; apply (HP n' c'); right; exact H]. intros d'.
  rewrite save_flat; [apply seqn_sub|exact HC|apply splitext_snoc_bare; exact HB].
Qed.

(** What a sequence did to every directory when it stopped after [t1]. *)
Lemma seqn_prefix f p (l : list (path * leaf)) d t e t1 t2 : NoDup (map fst l) -> seqn f p l d = (t, e) -> t = t1 ++ t2 ->
  exists done now todo, l = done ++ now ++ todo /\ length now <= 1 /\
    (forall x, In x done -> exists ops, f (snd x) (d (p ++ fst x)) = (ops, None) /\ play t1 d (p ++ fst x) = run ops (d (p ++ fst x))) /\
    (forall x, In x now -> exists ops ops' ex, f (snd x) (d (p ++ fst x)) = (ops ++ ops', ex) /\ play t1 d (p ++ fst x) = run ops (d (p ++ fst x))) /\
    (forall q, ~ In q (map fst (done ++ now)) -> play t1 d (p ++ q) = d (p ++ q)).
Proof.
  revert d t e t1 t2. induction l as [|x l IH]; intros d t e t1 t2 HN HS HT.
  - cbn in HS. injection HS as <- _. symmetry in HT. apply app_eq_nil in HT. destruct HT as [-> ->]. exists [], [], []. cbn.
    split; [reflexivity|]. split; [lia|]. split; [intros x []|]. split; [intros x []|reflexivity].
  - cbn [seqn] in HS. unfold andthen in HS. inversion HN as [|y l' Hx HN']; subst y l'.
    destruct (f (snd x) (d (p ++ fst x))) as [ops ex] eqn:Ef. unfold at_path in HS. cbn [fst snd] in HS.
    assert (HNOW : forall u w, u ++ w = map (fun o => (p ++ fst x, o)) ops -> t1 = u ->
      exists done now todo, x :: l = done ++ now ++ todo /\ length now <= 1 /\
    (forall x, In x done -> exists ops, f (snd x) (d (p ++ fst x)) = (ops, None) /\ play t1 d (p ++ fst x) = run ops (d (p ++ fst x))) /\
    (forall x, In x now -> exists ops ops' ex, f (snd x) (d (p ++ fst x)) = (ops ++ ops', ex) /\ play t1 d (p ++ fst x) = run ops (d (p ++ fst x))) /\
    (forall q, ~ In q (map fst (done ++ now)) -> play t1 d (p ++ q) = d (p ++ q))).
    { intros u w E ->. exists [], [x], l. symmetry in E. apply map_eq_app in E. destruct E as (o1 & o2 & -> & <- & <-).
      split; [reflexivity|]. split; [cbn; lia|]. split; [intros y []|]. split.
      - intros y [<-|[]]. exists o1, o2, ex. split; [exact Ef|]. apply play_at_same.
      - intros q Hq. apply play_at_other. intros E. apply app_inv_head in E. apply Hq. left. symmetry. exact E. }
    destruct ex as [ex|].
    + injection HS as <- <-. eapply HNOW; [symmetry; exact HT|reflexivity].
    + match type of HS with context [seqn f p l ?D] => change D with (play (map (fun o => (p ++ fst x, o)) ops) d) in HS end.
    destruct (seqn f p l (play (map (fun o => (p ++ fst x, o)) ops) d)) as [t' e'] eqn:E'. injection HS as <- <-.
      apply app_eq_app in HT. destruct HT as (k & [[HT1 HT2]|[HT1 HT2]]).
      * eapply HNOW; [symmetry; exact HT1|reflexivity].
      * subst t1. destruct (IH _ _ _ _ _ HN' E' HT2) as (done & now & todo & El & Hl & HD & HW & HO). clear IH HNOW.
        assert (HB : forall q, q <> fst x -> play (map (fun o => (p ++ fst x, o)) ops) d (p ++ q) = d (p ++ q)).
        { intros q Hq. apply play_at_other. intros E. apply app_inv_head in E. contradiction. }
        assert (HL : forall y, In y l -> fst y <> fst x) by (intros y Hy E; apply Hx; rewrite <- E; apply in_map; exact Hy).
        exists (x :: done), now, todo. rewrite El. split; [reflexivity|]. split; [exact Hl|]. rewrite play_app. split; [|split].
        -- intros y [<-|Hy].
           ++ exists ops. split; [exact Ef|]. rewrite HO; [apply play_at_same|]. intros HI. apply Hx. rewrite El, !map_app, in_app_iff, in_app_iff.
              rewrite map_app, in_app_iff in HI. tauto.
           ++ destruct (HD y Hy) as (o & E1 & E2). assert (HY : fst y <> fst x) by (apply HL; rewrite El; apply in_or_app; left; exact Hy).
              rewrite HB in E1, E2 by exact HY. exists o. auto.
        -- intros y Hy. destruct (HW y Hy) as (o & o' & ex & E1 & E2).
           assert (HY : fst y <> fst x) by (apply HL; rewrite El; apply in_or_app; right; apply in_or_app; left; exact Hy).
           rewrite HB in E1, E2 by exact HY. exists o, o', ex. auto.
        -- intros q Hq. cbn [app map] in Hq. rewrite HO; [apply HB; intros ->; apply Hq; left; reflexivity|]. intros HI. apply Hq. right. exact HI.
Qed.

(** The exception comes from the first source that raises. *)
Lemma seqn_raises f p (l : list (path * leaf)) d t ex : NoDup (map fst l) -> seqn f p l d = (t, Some ex) ->
  exists done x todo ops, l = done ++ x :: todo /\
    (forall y, In y done -> exists ops, f (snd y) (d (p ++ fst y)) = (ops, None) /\ play t d (p ++ fst y) = run ops (d (p ++ fst y))) /\
    f (snd x) (d (p ++ fst x)) = (ops, Some ex) /\ play t d (p ++ fst x) = run ops (d (p ++ fst x)) /\
    (forall q, ~ In q (map fst (done ++ [x])) -> play t d (p ++ q) = d (p ++ q)).
Proof.
  revert d t. induction l as [|x l IH]; intros d t HN HS; [discriminate|].
  cbn [seqn] in HS. unfold andthen in HS. inversion HN as [|y l' Hx HN']; subst y l'.
  destruct (f (snd x) (d (p ++ fst x))) as [ops [ex'|]] eqn:Ef; unfold at_path in HS; cbn [fst snd] in HS.
  - injection HS as <- <-. exists [], x, l, ops. split; [reflexivity|]. split; [intros y []|]. split; [exact Ef|]. split; [apply play_at_same|].
    intros q Hq. apply play_at_other. intros E. apply app_inv_head in E. apply Hq. left. symmetry. exact E.
  - match type of HS with context [seqn f p l ?D] => change D with (play (map (fun o => (p ++ fst x, o)) ops) d) in HS end.
    destruct (seqn f p l (play (map (fun o => (p ++ fst x, o)) ops) d)) as [t' e'] eqn:E'. injection HS as <- ->.
    assert (HB : forall q, q <> fst x -> play (map (fun o => (p ++ fst x, o)) ops) d (p ++ q) = d (p ++ q)).
    { intros q Hq. apply play_at_other. intros E. apply app_inv_head in E. contradiction. }
    assert (HL : forall y, In y l -> fst y <> fst x) by (intros y Hy E; apply Hx; rewrite <- E; apply in_map; exact Hy).
    destruct (IH _ _ HN' E') as (done & z & todo & o & El & HD & HW & HP & HO). clear IH.
    assert (HZ : fst z <> fst x) by (apply HL; rewrite El; apply in_or_app; right; left; reflexivity).
    exists (x :: done), z, todo, o. rewrite El. split; [reflexivity|]. rewrite play_app. split; [|split; [|split]].
    + intros y [<-|Hy].
      * exists ops. split; [exact Ef|]. rewrite HO; [apply play_at_same|]. intros HI. apply Hx. rewrite El, map_app, in_app_iff.
        rewrite map_app, in_app_iff in HI. cbn [map In] in *. tauto.
      * destruct (HD y Hy) as (o' & E1 & E2). assert (HY : fst y <> fst x) by (apply HL; rewrite El; apply in_or_app; left; exact Hy).
        rewrite HB in E1, E2 by exact HY. exists o'. auto.
    + rewrite HB in HW by exact HZ. exact HW.
    + rewrite HB in HP by exact HZ. exact HP.
    + intros q Hq. cbn [app map] in Hq. rewrite HO; [apply HB; intros ->; apply Hq; left; reflexivity|]. intros HI. apply Hq. right. exact HI.
Qed.

(** A sequence that succeeds did everything everywhere. *)
Lemma seqn_ok f p (l : list (path * leaf)) d t : NoDup (map fst l) -> seqn f p l d = (t, None) ->
  (forall x, In x l -> exists ops, f (snd x) (d (p ++ fst x)) = (ops, None) /\ play t d (p ++ fst x) = run ops (d (p ++ fst x))) /\
  (forall q, ~ In q (map fst l) -> play t d (p ++ q) = d (p ++ q)).
Proof.
  revert d t. induction l as [|x l IH]; intros d t HN HS.
  - cbn in HS. injection HS as <-. split; [intros x []|reflexivity].
  - cbn [seqn] in HS. unfold andthen in HS. inversion HN as [|y l' Hx HN']; subst y l'.
    destruct (f (snd x) (d (p ++ fst x))) as [ops [ex'|]] eqn:Ef; unfold at_path in HS; cbn [fst snd] in HS; [discriminate|].
    match type of HS with context [seqn f p l ?D] => change D with (play (map (fun o => (p ++ fst x, o)) ops) d) in HS end.
    destruct (seqn f p l (play (map (fun o => (p ++ fst x, o)) ops) d)) as [t' e'] eqn:E'. injection HS as <- ->.
    assert (HB : forall q, q <> fst x -> play (map (fun o => (p ++ fst x, o)) ops) d (p ++ q) = d (p ++ q)).
    { intros q Hq. apply play_at_other. intros E. apply app_inv_head in E. contradiction. }
    destruct (IH _ _ HN' E') as [HD HO]. rewrite play_app. split.
    + intros y [<-|Hy].
      * exists ops. split; [exact Ef|]. rewrite HO by exact Hx. apply play_at_same.
      * destruct (HD y Hy) as (o & E1 & E2). assert (HY : fst y <> fst x) by (intros E; apply Hx; rewrite <- E; apply in_map; exact Hy).
        rewrite HB in E1, E2 by exact HY. exists o. auto.
    + intros q Hq. rewrite HO; [apply HB; intros ->; apply Hq; left; reflexivity|]. intros HI. apply Hq. right. exact HI.
Qed.

(** It succeeds if it would succeed everywhere. *)
Lemma seqn_cons f p (x : path * leaf) l d ops : f (snd x) (d (p ++ fst x)) = (ops, None) ->
  seqn f p (x :: l) d = let '(t, e) := seqn f p l (play (map (fun o => (p ++ fst x, o)) ops) d) in (map (fun o => (p ++ fst x, o)) ops ++ t, e).
Proof. intros H. cbn [seqn]. unfold andthen, at_path. rewrite H. reflexivity. Qed.

Lemma seqn_can f p (l : list (path * leaf)) d : NoDup (map fst l) -> (forall x, In x l -> snd (f (snd x) (d (p ++ fst x))) = None) ->
  exists t, seqn f p l d = (t, None).
Proof.
  revert d. induction l as [|x l IH]; intros d HN H; [eexists; reflexivity|]. inversion HN as [|y l' Hx HN']; subst y l'.
  destruct (f (snd x) (d (p ++ fst x))) as [ops e] eqn:Ef. pose proof (H x (or_introl eq_refl)) as Hf. rewrite Ef in Hf. cbn in Hf. subst e.
  rewrite (seqn_cons f p x l d ops Ef). destruct (IH (play (map (fun o => (p ++ fst x, o)) ops) d) HN') as (t & Et).
  - intros y Hy. rewrite play_at_other; [apply H; right; exact Hy|]. intros E. apply app_inv_head in E. apply Hx. rewrite <- E. apply in_map. exact Hy.
  - rewrite Et. eexists. reflexivity.
Qed.

(** ** Histories *)

Lemma save_none D ok a w :
  M_Checkpoint.save df D ok (a_keep a) (a_prot a) (a_desc a) None (a_steps a) w =
  M_Checkpoint.save_weights (W := V * nat) df D ok (a_keep a) (a_prot a) (a_desc a) (a_steps a) w.
Proof. unfold M_Checkpoint.save. cbn [run fold_left app]. destruct (M_Checkpoint.save_weights df D ok _ _ _ _ w). reflexivity. Qed.

Lemma save_needs_ok (D : dir (V * nat)) ok k pr de tr st w ops : M_Checkpoint.save df D ok k pr de tr st w = (ops, None) -> ok = true.
Proof.
  unfold M_Checkpoint.save. destruct (match tr with None => _ | Some _ => _ end) as [o [e|]]; [discriminate|].
  destruct ok; [reflexivity|]. cbn. discriminate.
Qed.

Definition entry_of (a : args) (tr : training) (x : leaf) : entry (V * nat) :=
  {| e_prot := a_prot a; e_keep := a_keep a; e_desc := a_desc a; e_training := tr; e_steps := a_steps a; e_w := (snd (fst x), snd x) |}.

Lemma checkpoints_step root q h d D a tr m x ops : In (q, x) (flatm m) -> Checkpoints df root q h d ->
  saveT a tr x (d (root ++ q)) = (ops, None) -> D (root ++ q) = run ops (d (root ++ q)) ->
  Checkpoints df root q (h ++ [{| s_manager := m; s_args := a; s_training := tr |}]) D.
Proof.
  intros Hx (es & HH & HF) HS HD. exists (es ++ [entry_of a tr x]). split.
  - rewrite HD. apply h_save; [exact HH|]. unfold saveT in HS. destruct x as [[ok v] s]. cbn [fst snd] in *.
    pose proof (save_needs_ok _ _ _ _ _ _ _ _ _ HS) as ->. exact HS.
  - apply Forall2_app; [exact HF|]. constructor; [|constructor]. unfold Entry, entry_of. cbn. repeat (split; [reflexivity|]).
    destruct x as [[ok v] s]. exists ok. apply in_flatm. exact Hx.
Qed.

Lemma checkpoints_same root q h d D : Checkpoints df root q h d -> D (root ++ q) = d (root ++ q) -> Checkpoints df root q h D.
Proof. intros (es & HH & HF) E. exists es. rewrite E. auto. Qed.

Lemma step_checkpoints root m d a tr t (H : path -> list (snapshot V)) : Keys m ->
  seqn (saveT a tr) root (flatm m) d = (t, None) ->
  (forall q, In q (map fst (flatm m)) -> Checkpoints df root q (H q) d) ->
  forall q, In q (map fst (flatm m)) -> Checkpoints df root q (H q ++ [{| s_manager := m; s_args := a; s_training := tr |}]) (play t d).
Proof.
  intros HK HS HC q Hq. destruct (seqn_ok _ _ _ _ _ (nodup_flatm m HK) HS) as [HD _]. apply in_map_iff in Hq. destruct Hq as ([q' x] & E & Hx). cbn in E. subst q'.
  destruct (HD _ Hx) as (ops & E1 & E2). cbn [fst snd] in *. eapply checkpoints_step; [exact Hx| |exact E1|exact E2]. apply HC. apply in_map_iff. exists (q, x). auto.
Qed.

Lemma seqn_ext f g p l d : (forall x D, f x D = g x D) -> seqn f p l d = seqn g p l d.
Proof. intros H. revert d. induction l as [|x l IH]; intros d; [reflexivity|]. cbn [seqn]. apply andthen_ext; [|exact IH]. intros d'. rewrite H. reflexivity. Qed.

Lemma save1_T a x D : save1 a x D = saveT a None x D.
Proof. unfold save1, saveT. rewrite save_none. reflexivity. Qed.

Lemma runfrom_inv root m0 d0 h m d (H : path -> list (snapshot V)) : splitext_path root = root -> Keys m0 -> PlainNames m0 ->
  (forall q, In q (map fst (flatm m0)) -> Checkpoints df root q (H q) d0) ->
  RunFrom df root m0 d0 h m d ->
  Keys m /\ PlainNames m /\ map fst (flatm m) = map fst (flatm m0) /\
  forall q, In q (map fst (flatm m0)) -> Checkpoints df root q (H q ++ h) d.
Proof.
  intros HR HK HP HC HRun. induction HRun as [|h m m' d HRun (IK & IP & IF & IC) HA|h m d a t HRun (IK & IP & IF & IC) HS|h m d a tr t HRun (IK & IP & IF & IC) HS].
  - split; [exact HK|]. split; [exact HP|]. split; [reflexivity|]. intros q Hq. rewrite app_nil_r. apply HC. exact Hq.
  - split; [eapply alike_keys; eassumption|]. split; [eapply alike_plain; eassumption|]. split; [|exact IC]. rewrite <- (flatm_alike m m' HA). exact IF.
  - split; [exact IK|]. split; [exact IP|]. split; [exact IF|]. rewrite manager_save_weights_flat in HS.
    rewrite (seqn_ext _ (saveT a None)) in HS by (intros; apply save1_T).
    intros q Hq. rewrite app_assoc. apply (step_checkpoints root m d a None t (fun q => H q ++ h) IK HS); rewrite IF; [exact IC|exact Hq].
  - split; [exact IK|]. split; [exact IP|]. split; [exact IF|]. rewrite manager_save_flat in HS by assumption.
    intros q Hq. rewrite app_assoc. apply (step_checkpoints root m d a tr t (fun q => H q ++ h) IK HS); rewrite IF; [exact IC|exact Hq].
Qed.

Lemma run_from root h m d : Run df root h m d -> exists m0, RunFrom df root m0 (fun _ => empty_dir) h m d /\ (Keys m -> Keys m0) /\ (PlainNames m -> PlainNames m0).
Proof.
  assert (HS : forall c c' : comp V, Like c c' -> Like c' c).
  { intros c. induction c as [ok' v' s'| |st subs IH] using comp_ind2; intros c' H; inversion H as [ok1 v1 s1 ok2 v2 s2| |st1 st2 l1 l2 H1]; subst; constructor.
    clear H. revert IH. induction H1 as [|a b l l' [E HL] HF IHF]; intros IH; constructor.
    - split; [symmetry; exact E|]. apply (IH (fst a)); [left; destruct a; reflexivity|exact HL].
    - apply IHF. intros n' c' Hc. apply (IH n' c'). right. exact Hc. }
  assert (HSM : forall m m' : manager V, Alike m m' -> Alike m' m).
  { unfold Alike. induction 1 as [|a b l l' [E HL] HF IHF]; constructor; [split; [symmetry; exact E|apply HS; exact HL]|exact IHF]. }
  induction 1 as [m|h m m' d HRun (m0 & H1 & H2 & H3) HA|h m d a t HRun (m0 & H1 & H2 & H3) HT|h m d a tr t HRun (m0 & H1 & H2 & H3) HT].
  - exists m. split; [constructor|auto].
  - exists m0. split; [econstructor; eassumption|]. split; intros HX; [apply H2; eapply alike_keys; [apply HSM; exact HA|exact HX]|apply H3; eapply alike_plain; [apply HSM; exact HA|exact HX]].
  - exists m0. split; [econstructor; eassumption|auto].
  - exists m0. split; [econstructor; eassumption|auto].
Qed.

Lemma run_inv root h m d : splitext_path root = root -> Keys m -> PlainNames m -> Run df root h m d ->
  forall q, In q (map fst (flatm m)) -> Checkpoints df root q h d.
Proof.
  intros HR HK HP HRun. destruct (run_from root h m d HRun) as (m0 & HF & H1 & H2).
  destruct (runfrom_inv root m0 (fun _ => empty_dir) h m d (fun _ => []) HR (H1 HK) (H2 HP)) as (_ & _ & E & HC).
  - intros q _. exists []. split; constructor.
  - exact HF.
  - intros q Hq. rewrite E in Hq. apply (HC q Hq).
Qed.

(** ** Loading *)

(** Sources one after the other, with the component put together again. *)
Fixpoint loadn (p : path) (number : option nat) (l : list (path * leaf)) (d : disk V) : list (path * leaf) * option exn :=
  match l with
  | [] => ([], None)
  | x :: l' =>
      match M_Checkpoint.load_weights (d (p ++ fst x)) number with
      | Ok w => let '(r, e) := loadn p number l' d in ((fst x, (fst (fst (snd x)), fst w, snd w)) :: r, e)
      | Err e => (x :: l', Some e)
      end
  end.

Lemma loadn_app p number l l' d : loadn p number (l ++ l') d =
  match loadn p number l d with
  | (r, Some e) => (r ++ l', Some e)
  | (r, None) => let '(r', e) := loadn p number l' d in (r ++ r', e)
  end.
Proof.
  induction l as [|x l IH]; [cbn; destruct (loadn p number l' d); reflexivity|]. cbn [app loadn].
  destruct (M_Checkpoint.load_weights (d (p ++ fst x)) number) as [w|e]; [|reflexivity]. rewrite IH.
  destruct (loadn p number l d) as [r [e|]]; [reflexivity|]. destruct (loadn p number l' d) as [r' e']. reflexivity.
Qed.

Definition down (n : string) (l : list (path * leaf)) : list (path * leaf) := map (fun x : path * leaf => (n :: fst x, snd x)) l.

Lemma loadn_sub p number n l d : loadn p number (down n l) d = let '(r, e) := loadn (p ++ [n]) number l d in (down n r, e).
Proof.
  induction l as [|x l IH]; [reflexivity|]. unfold down in *. cbn [map loadn fst snd]. rewrite IH, <- app_assoc. cbn [app].
  match goal with |- context [M_Checkpoint.load_weights (d ?X) number] => destruct (M_Checkpoint.load_weights (d X) number) as [w|e] end; [|reflexivity]. destruct (loadn (p ++ [n]) number l d) as [r e]. reflexivity.
Qed.

Lemma load_weights_flat number c p d :
  flat (fst (load_weights p number c d)) = fst (loadn p number (flat c) d) /\
  snd (load_weights p number c d) = snd (loadn p number (flat c) d) /\ Like c (fst (load_weights p number c d)).
Proof.
  revert p. induction c as [ok v s| |st subs IH] using comp_ind2; intros p; cbn [load_weights flat loadn fst snd].
  - rewrite app_nil_r. destruct (M_Checkpoint.load_weights (d p) number) as [[v' s']|e]; cbn [flat fst snd]; repeat split; constructor.
  - repeat split; constructor.
  - match goal with |- context [let '(_, _) := ?f subs in _] => set (each := f) end.
    assert (HE : flat_map (fun ns => down (fst ns) (flat (snd ns))) (fst (each subs)) = fst (loadn p number (flat_map (fun ns => down (fst ns) (flat (snd ns))) subs) d) /\
      snd (each subs) = snd (loadn p number (flat_map (fun ns => down (fst ns) (flat (snd ns))) subs) d) /\
      Forall2 (fun a b => fst a = fst b /\ Like (snd a) (snd b)) subs (fst (each subs))).
    { induction subs as [|[n c] subs IHs]; [cbn; repeat split; constructor|]. cbn [flat_map fst snd each]. fold each. rewrite loadn_app, loadn_sub.
      destruct (IH n c (or_introl eq_refl) (p ++ [n])) as (E1 & E2 & E3). destruct (load_weights (p ++ [n]) number c d) as [c' e']. cbn [fst snd] in *.
      destruct (loadn (p ++ [n]) number (flat c) d) as [r e]. cbn [fst snd] in *. subst e' r.
      destruct e as [e|]; cbn [fst snd].
      - split; [reflexivity|]. split; [reflexivity|]. constructor; [split; [reflexivity|exact E3]|apply alike_refl].
      - destruct IHs as (F1 & F2 & F3); [intros n' c0 Hc; apply (IH n' c0); right; exact Hc|].
        destruct (each subs) as [r' e']. destruct (loadn p number (flat_map (fun ns => down (fst ns) (flat (snd ns))) subs) d) as [r e]. cbn [fst snd flat_map] in *.
        subst. split; [reflexivity|]. split; [reflexivity|]. constructor; [split; [reflexivity|exact E3]|exact F3]. }
    destruct HE as (E1 & E2 & E3). destruct (each subs) as [subs' e]. cbn [fst snd flat] in *. split; [exact E1|]. split; [exact E2|]. constructor. exact E3.
Qed.

Lemma manager_load_weights_flat number m p d :
  flatm (fst (manager_load_weights p number m d)) = fst (loadn p number (flatm m) d) /\
  snd (manager_load_weights p number m d) = snd (loadn p number (flatm m) d) /\
  Alike m (fst (manager_load_weights p number m d)).
Proof.
  induction m as [|[n c] m (IH1 & IH2 & IH3)]; [split; [reflexivity|split; [reflexivity|constructor]]|]. cbn [manager_load_weights flatm flat_map fst snd].
  fold (down n (flat c)). fold (flatm m). rewrite loadn_app, loadn_sub. destruct (load_weights_flat number c (p ++ [n]) d) as (E1 & E2 & E3).
  destruct (load_weights (p ++ [n]) number c d) as [c' e']. destruct (loadn (p ++ [n]) number (flat c) d) as [r e]. cbn [fst snd] in *. subst e' r.
  destruct e as [e|]; cbn [fst snd].
  - split; [reflexivity|]. split; [reflexivity|]. constructor; [split; [reflexivity|exact E3]|apply alike_refl].
  - destruct (manager_load_weights p number m d) as [m' e']. destruct (loadn p number (flatm m) d) as [r e].
    cbn [fst snd] in *. subst. split; [reflexivity|]. split; [reflexivity|]. constructor; [split; [reflexivity|exact E3]|exact IH3].
Qed.

(** Loading everything anew. *)
Lemma load_flat number c p d c' : Plain c -> splitext_path p = p -> load p number c d = Ok c' ->
  exists l, loadn p number (flat c) d = (l, None) /\ flat c' = map (fun x : path * leaf => (fst x, (true, snd (fst (snd x)), snd (snd x)))) l.
Proof.
  revert p c'. induction c as [ok v s| |st subs IH] using comp_ind2; intros p c' HP Hp HL; cbn [load flat loadn] in *; rewrite ?Hp in HL.
  - cbn [fst]. rewrite app_nil_r. destruct (M_Checkpoint.load_weights (d p) number) as [[v' s']|e]; [|discriminate]. injection HL as <-. eexists. split; reflexivity.
  - injection HL as <-. exists []. split; reflexivity.
  - match type of HL with bind (?f subs) _ = _ => set (each := f) in * end.
    destruct (each subs) as [subs'|] eqn:HE; [|discriminate]. cbn in HL. injection HL as <-. cbn [flat].
    inversion HP as [| |st' l' HS]; subst. clear HP. revert subs' HE. induction subs as [|[n c] subs IHs]; intros subs' HE.
    + cbn in HE. injection HE as <-. exists []. split; reflexivity.
    + cbn [each] in HE. fold each in HE. destruct (HS n c) as [HB HC]; [left; reflexivity|].
      destruct (load (p ++ [n]) number c d) as [c'|] eqn:E1; [|discriminate]. cbn [bind] in HE.
      destruct (each subs) as [r|] eqn:E2; [|discriminate]. cbn [bind] in HE. injection HE as <-.
      destruct (IH n c (or_introl eq_refl) (p ++ [n]) c' HC (splitext_snoc_bare _ _ HB) E1) as (l1 & F1 & G1).
      destruct (IHs (fun n' c' H => IH n' c' (or_intror H)) (fun n' c' H => HS n' c' (or_intror H)) r eq_refl) as (l2 & F2 & G2).
      exists (down n l1 ++ l2). cbn [flat_map fst snd]. fold (down n (flat c)). rewrite loadn_app, loadn_sub, F1. cbn [fst snd].
      change (fun ns : string * comp V => map (fun x : path * leaf => (fst ns :: fst x, snd x)) (flat (snd ns))) with (fun ns : string * comp V => down (fst ns) (flat (snd ns))) in F2, G2 |- *.
      rewrite F2. split; [reflexivity|]. rewrite map_app, <- G2, G1. f_equal. unfold down. rewrite !map_map. reflexivity.
Qed.

Lemma manager_load_flat number m p d m' : PlainNames m -> splitext_path p = p -> manager_load p number m d = Ok m' ->
  exists l, loadn p number (flatm m) d = (l, None) /\ flatm m' = map (fun x : path * leaf => (fst x, (true, snd (fst (snd x)), snd (snd x)))) l.
Proof.
  intros HP Hp. unfold manager_load. rewrite Hp. revert m'. induction m as [|[n c] m IH]; intros m' HL.
  - cbn in HL. injection HL as <-. exists []. split; reflexivity.
  - cbn [load_each] in HL. destruct (HP n c) as [HB HC]; [left; reflexivity|].
    destruct (load (p ++ [n]) number c d) as [c'|] eqn:E1; [|discriminate]. cbn [bind] in HL.
    destruct (load_each p number m d) as [r|] eqn:E2; [|discriminate]. cbn [bind] in HL. injection HL as <-.
    destruct (load_flat number c (p ++ [n]) d c' HC (splitext_snoc_bare _ _ HB) E1) as (l1 & F1 & G1).
    destruct (IH (fun n' c' H => HP n' c' (or_intror H)) r eq_refl) as (l2 & F2 & G2).
    exists (down n l1 ++ l2). cbn [flatm flat_map fst snd]. fold (down n (flat c)). fold (flatm m). rewrite loadn_app, loadn_sub, F1, F2.
    split; [reflexivity|]. rewrite map_app, <- G2. fold (flatm r). rewrite G1. f_equal. unfold down. rewrite !map_map. reflexivity.
Qed.

Lemma load_can number c p d : Plain c -> splitext_path p = p -> snd (loadn p number (flat c) d) = None -> exists c', load p number c d = Ok c'.
Proof.
  revert p. induction c as [ok v s| |st subs IH] using comp_ind2; intros p HP Hp HL; cbn [load flat loadn] in *; rewrite ?Hp.
  - cbn [fst] in HL. rewrite app_nil_r in HL. destruct (M_Checkpoint.load_weights (d p) number) as [[v' s']|e]; [eexists; reflexivity|discriminate].
  - eexists. reflexivity.
  - match goal with |- context [bind (?f subs) _] => set (each := f) in * end.
    assert (HE : exists r, each subs = Ok r).
    { inversion HP as [| |st' l' HS]; subst. clear HP. induction subs as [|[n c] subs IHs]; [eexists; reflexivity|].
      cbn [each]. fold each. cbn [flat_map fst snd] in HL. fold (down n (flat c)) in HL. rewrite loadn_app, loadn_sub in HL. destruct (HS n c) as [HB HC]; [left; reflexivity|].
      destruct (loadn (p ++ [n]) number (flat c) d) as [r1 e1] eqn:F1. destruct e1 as [e1|]; [discriminate|].
      destruct (IH n c (or_introl eq_refl) (p ++ [n]) HC (splitext_snoc_bare _ _ HB)) as (c' & ->); [rewrite F1; reflexivity|]. cbn [bind].
      destruct IHs as (r & ->); [intros n' c0 H; apply (IH n' c0 (or_intror H))| |intros n' c0 H; apply (HS n' c0 (or_intror H))|].
      - destruct (loadn p number (flat_map (fun ns => map (fun x : path * leaf => (fst ns :: fst x, snd x)) (flat (snd ns))) subs) d) as [r2 e2]. exact HL.
      - eexists. reflexivity. }
    destruct HE as (r & ->). eexists. reflexivity.
Qed.

Lemma manager_load_can number m p d : PlainNames m -> splitext_path p = p -> snd (loadn p number (flatm m) d) = None -> exists m', manager_load p number m d = Ok m'.
Proof.
  intros HP Hp. unfold manager_load. rewrite Hp. induction m as [|[n c] m IH]; intros HL; [eexists; reflexivity|].
  cbn [load_each flatm flat_map fst snd] in *. fold (down n (flat c)) in HL. fold (flatm m) in HL. rewrite loadn_app, loadn_sub in HL. destruct (HP n c) as [HB HC]; [left; reflexivity|].
  destruct (loadn (p ++ [n]) number (flat c) d) as [r1 e1] eqn:F1. destruct e1 as [e1|]; [discriminate|].
  destruct (load_can number c (p ++ [n]) d HC (splitext_snoc_bare _ _ HB)) as (c' & ->); [rewrite F1; reflexivity|]. cbn [bind].
  destruct IH as (r & ->); [intros n' c0 H; apply (HP n' c0 (or_intror H))| |eexists; reflexivity].
  destruct (loadn p number (flatm m) d) as [r2 e2]. exact HL.
Qed.

(** Which sources were loaded. *)
Lemma loadn_spec p number (l : list (path * leaf)) d r e : loadn p number l d = (r, e) ->
  exists done todo, l = done ++ todo /\
    (exists done', r = done' ++ todo /\ Forall2 (fun x y => fst y = fst x /\ fst (fst (snd y)) = fst (fst (snd x)) /\
       M_Checkpoint.load_weights (d (p ++ fst x)) number = Ok (snd (fst (snd y)), snd (snd y))) done done') /\
    match e with None => todo = [] | Some ex => exists x rest, todo = x :: rest /\ M_Checkpoint.load_weights (d (p ++ fst x)) number = Err ex end.
Proof.
  revert r e. induction l as [|x l IH]; intros r e H.
  - cbn in H. injection H as <- <-. exists [], []. split; [reflexivity|]. split; [exists []; split; [reflexivity|constructor]|reflexivity].
  - cbn [loadn] in H. destruct (M_Checkpoint.load_weights (d (p ++ fst x)) number) as [w|ex] eqn:E.
    + destruct (loadn p number l d) as [r' e'] eqn:E'. injection H as <- <-. destruct (IH _ _ eq_refl) as (done & todo & El & (done' & Er & HF) & He).
      exists (x :: done), todo. split; [rewrite El; reflexivity|]. split; [|exact He]. eexists (_ :: done'). split; [rewrite Er; reflexivity|]. constructor; [|exact HF].
      cbn. destruct w. auto.
    + injection H as <- <-. exists [], (x :: l). split; [reflexivity|]. split; [exists []; split; [reflexivity|constructor]|]. exists x, l. auto.
Qed.

End Lemmas.

(** ** Which checkpoints survive depends on the flags only *)

Section Flags.
Variables A B : Type.
Definition SameFlags (x : entry A) (y : entry B) : Prop := e_prot x = e_prot y /\ e_keep x = e_keep y.

Lemma forall2_nth {X Y} (R : X -> Y -> Prop) l l' k x : Forall2 R l l' -> nth_error l k = Some x -> exists y, nth_error l' k = Some y /\ R x y.
Proof. intros H. revert k. induction H as [|a b l l' HR H IH]; intros [|k] E; try discriminate; [injection E as <-; exists b; auto|]. apply IH. exact E. Qed.

Lemma forall2_len {X Y} (R : X -> Y -> Prop) l l' : Forall2 R l l' -> length l = length l'.
Proof. induction 1; cbn; congruence. Qed.

Lemma unprotected_flags h h' n : Forall2 SameFlags h h' -> unprotected h n = unprotected h' n.
Proof.
  intros H. destruct n as [|n]; [reflexivity|]. cbn [unprotected]. destruct (nth_error h n) as [e|] eqn:E.
  - destruct (forall2_nth _ _ _ _ _ H E) as (e' & -> & HE & _). rewrite HE. reflexivity.
  - assert (E' : nth_error h' n = None) by (apply nth_error_None; apply nth_error_None in E; rewrite <- (forall2_len _ _ _ H); exact E). rewrite E'. reflexivity.
Qed.

Lemma later_flags h h' n : Forall2 SameFlags h h' -> later h n = later h' n.
Proof.
  intros H. unfold later. rewrite (forall2_len _ _ _ H). f_equal. apply filter_ext. intros k. rewrite (unprotected_flags _ _ k H). reflexivity.
Qed.

Lemma survives_flags h h' n : Forall2 SameFlags h h' -> Survives h n -> Survives h' n.
Proof.
  intros H [HU HS]. split; [rewrite <- (unprotected_flags _ _ n H); exact HU|]. intros h1 e h2 -> HL HP HK.
  apply Forall2_app_inv_r in H. destruct H as (g1 & g2 & H1 & H2 & ->). inversion H2 as [|x y l l' Hxy H3 E1 E2]; subst. destruct Hxy as [E1 E2].
  rewrite <- (later_flags (g1 ++ [x]) (h1 ++ [e]) n); [rewrite <- E2; apply (HS g1 x l); [reflexivity|rewrite (forall2_len _ _ _ H1); exact HL|congruence|rewrite E2; exact HK]|].
  apply Forall2_app; [exact H1|]. constructor; [split; assumption|constructor].
Qed.
End Flags.

Lemma forall2_flip {X Y} (R : X -> Y -> Prop) l l' : Forall2 R l l' -> Forall2 (fun y x => R x y) l' l.
Proof. induction 1; constructor; assumption. Qed.

Section Loads.
Variable V : Type.
Variable df : nat -> bool.

Lemma entries_flags q (h : list (snapshot V)) es : Forall2 (Entry q) h es -> Forall2 (SameFlags (V * nat) unit) es (map Flags h).
Proof. induction 1 as [|s e h es HE H IH]; constructor; [|exact IH]. destruct HE as (H1 & H2 & _). split; assumption. Qed.

(** Loading a numbered checkpoint of one source. *)
Lemma load_number root q (h : list (snapshot V)) d k s : Checkpoints df root q h d -> (forall s, In s h -> (0 <= a_keep (s_args s))%Z) ->
  nth_error h k = Some s ->
  (There h k -> exists ok w, M_Checkpoint.load_weights (d (root ++ q)) (Some (S k)) = Ok w /\ Holds (s_manager s) q ok (fst w) (snd w)) /\
  (~ There h k -> M_Checkpoint.load_weights (d (root ++ q)) (Some (S k)) = Err KeyError).
Proof.
  intros (es & HH & HF) HK Hs. destruct (hist_inv (V * nat) df es _ HH) as (l & HI & _).
  assert (HNE : es <> []) by (intros ->; inversion HF; subst; destruct k; discriminate).
  assert (HN : Nonneg (V * nat) es).
  { apply Forall_forall. intros e He. apply In_nth_error in He. destruct He as (i & Hi). destruct (forall2_nth _ _ _ _ _ (forall2_flip _ _ _ HF) Hi) as (s0 & Hs0 & (_ & E & _)).
    rewrite E. apply HK. eapply nth_error_In. exact Hs0. }
  destruct (kept_survives (V * nat) es l (i_kept _ _ _ _ HI) HN) as [_ HSV]. destruct (inv_load (V * nat) es _ l (S k) HI HNE) as [A B].
  assert (HX : In (S k) (l ++ prots (V * nat) es) <-> There h k).
  { rewrite in_app_iff, HSV, prots_spec. unfold There. split.
    - intros [HS|(e & (j & Ej & Hj) & HP)]; exists s; (split; [exact Hs|]).
      + right. apply (survives_flags _ _ es); [apply entries_flags with (q := q); exact HF|exact HS].
      + left. injection Ej as <-. destruct (forall2_nth _ _ _ _ _ (forall2_flip _ _ _ HF) Hj) as (s0 & Hs0 & (E & _)). assert (s0 = s) by congruence. subst s0. congruence.
    - intros (s0 & Hs0 & HS). assert (s0 = s) by congruence. subst s0. destruct HS as [HP|HS].
      + right. destruct (forall2_nth _ _ _ _ _ HF Hs) as (e & He & (E & _)). exists e. split; [exists k; auto|congruence].
      + left. apply (survives_flags _ _ (map Flags h)); [|exact HS]. pose proof (entries_flags q h es HF) as HE. apply forall2_flip in HE.
        clear - HE. induction HE as [|x y l l' [H1 H2] H IH]; constructor; [split; congruence|exact IH]. }
  split; intros HT.
  - destruct (A (proj2 HX HT)) as (e & (j & Ej & Hj) & HL & _). injection Ej as <-. destruct (forall2_nth _ _ _ _ _ (forall2_flip _ _ _ HF) Hj) as (s0 & Hs0 & HE).
    assert (s0 = s) by congruence. subst s0. destruct HE as (_ & _ & _ & _ & _ & ok & Hh). exists ok, (e_w e). auto.
  - apply B. intros HI'. apply HT. apply HX. exact HI'.
Qed.

Lemma load_beyond root q (h : list (snapshot V)) d k : Checkpoints df root q h d -> length h <= k -> h <> [] ->
  M_Checkpoint.load_weights (d (root ++ q)) (Some (S k)) = Err KeyError.
Proof.
  intros (es & HH & HF) Hk Hn. destruct (hist_inv (V * nat) df es _ HH) as (l & HI & _).
  assert (HNE : es <> []) by (intros ->; inversion HF; subst; congruence). rewrite (forall2_len _ _ _ HF) in Hk.
  destruct (inv_load (V * nat) es _ l (S k) HI HNE) as [_ B]. apply B. intros H. apply in_app_iff in H.
  pose proof (kept_range (V * nat) es l (i_kept _ _ _ _ HI)) as [_ HR]. rewrite Forall_forall in HR.
  destruct H as [H|H]; [apply HR in H|apply prots_range in H]; lia.
Qed.

Lemma load_newest root q (h : list (snapshot V)) s d : Checkpoints df root q (h ++ [s]) d -> a_prot (s_args s) = true \/ (0 <= a_keep (s_args s))%Z ->
  exists ok w, M_Checkpoint.load_weights (d (root ++ q)) None = Ok w /\ Holds (s_manager s) q ok (fst w) (snd w).
Proof.
  intros (es & HH & HF) HK. apply Forall2_app_inv_l in HF. destruct HF as (e1 & e2 & HF & HF2 & ->). inversion HF2 as [|x e l l' HE HF3]; subst. inversion HF3; subst.
  destruct HE as (H1 & H2 & _ & _ & _ & ok & Hh). exists ok, (e_w e). split; [|exact Hh]. 
  apply (C25_latest (V * nat) df e1 e _ HH). rewrite H1, H2. exact HK.
Qed.

(** ** Training records *)

Definition trained (D : dir (V * nat)) : Prop := exists t, d_train D = Some (Some t) /\ nget (t_latest t) (t_steps t) <> None.

Lemma nget_nset_same {A} k (v : A) l : nget k (nset k v l) = Some v.
Proof.
  unfold nget. induction l as [|[k' v'] l IH]; cbn [nset find fst]; [rewrite Nat.eqb_refl; reflexivity|].
  destruct (Nat.eqb k' k) eqn:E; cbn [find fst]; [rewrite ?Nat.eqb_refl, ?E; reflexivity|rewrite E; exact IH].
Qed.

Definition keeps_train (o : op (V * nat)) : bool := match o with TruncTrain => false | DumpTrain _ => false | _ => true end.

Lemma run_keeps_train ops D : Forall (fun o => keeps_train o = true) ops -> d_train (run ops D) = d_train D.
Proof.
  intros H. revert D. induction H as [|o ops Ho H IH]; intros D; [reflexivity|]. cbn [run fold_left]. unfold run in IH. rewrite IH.
  destruct o; try discriminate; reflexivity.
Qed.

Lemma run_app' (a b : list (op (V * nat))) D : run (a ++ b) D = run b (run a D).
Proof. apply fold_left_app. Qed.

Lemma update_trained D s : trained D -> exists ops, update_num_training_steps D s = (ops, None) /\ trained (run ops D).
Proof.
  intros (t & E & HN). unfold update_num_training_steps. rewrite E. destruct (nget (t_latest t) (t_steps t)); [|congruence].
  eexists. split; [reflexivity|]. eexists. split; [reflexivity|]. cbn [t_latest t_steps]. rewrite nget_nset_same. discriminate.
Qed.

Lemma remove_keeps D n : Forall (fun o => keeps_train o = true) (remove_files df D n).
Proof. unfold remove_files. destruct (df n), (d_data D n), (d_index D n); repeat constructor. Qed.

Lemma prune_keeps D ns u r : prune df D ns u = Ok r -> Forall (fun o => keeps_train o = true) (snd r).
Proof.
  revert u r. induction ns as [|n ns IH]; intros u r H; cbn [prune] in H; [injection H as <-; constructor|].
  destruct (nget n u) as [i|]; [|discriminate]. destruct (prune df D ns (ndel n u)) as [[u' ops]|] eqn:E; [|discriminate]. injection H as <-. cbn [snd].
  apply Forall_app. split; [apply remove_keeps|]. exact (IH _ _ E).
Qed.

Lemma save_weights_trained D k pr de st w ops : M_Checkpoint.save_weights df D true k pr de st w = (ops, None) -> trained D -> trained (run ops D).
Proof.
  intros H HT. unfold M_Checkpoint.save_weights in H. cbn [negb] in H.
  destruct (match d_yaml D with None => _ | Some m => m end) as [m|]; [|discriminate]. destruct (d_index D (S (m_latest m))); [discriminate|].
  destruct (has_key _ _ || has_key _ _); [discriminate|].
  destruct (match st with None => _ | Some s => _ end) as [ops0 [e0|]] eqn:E0; [discriminate|].
  assert (HT0 : trained (run ops0 D)).
  { destruct st as [s|]; [|injection E0 as <-; exact HT]. destruct (update_trained D s HT) as (o & E & HT'). rewrite E in E0. injection E0 as <-. exact HT'. }
  assert (HS : forall rest, Forall (fun o => keeps_train o = true) rest -> trained (run (ops0 ++ rest) D)).
  { intros rest HR. destruct HT0 as (t & E & HN). exists t. split; [|exact HN]. rewrite run_app', run_keeps_train by exact HR. exact E. }
  match type of H with context [match ?X with Ok _ => _ | Err _ => _ end] => destruct X as [[u o2]|] eqn:E2; [|discriminate] end.
  injection H as <-. rewrite <- app_assoc. apply HS. repeat constructor. apply Forall_app. split; [|repeat constructor].
  destruct pr; [injection E2 as <- <-; constructor|]. destruct (k <? _)%Z; [|injection E2 as <- <-; constructor]. exact (prune_keeps _ _ _ _ E2).
Qed.

Lemma settings_trained D cs ops : save_training_settings D cs = (ops, None) -> trained (run ops D).
Proof.
  intros H. unfold save_training_settings in H. destruct (match d_train D with None => _ | Some t => t end) as [t|]; [|discriminate].
  destruct (d_step D _); [discriminate|]. destruct (has_key _ _); [discriminate|]. destruct (save_components (S (t_latest t)) cs) as [o [e|]]; [discriminate|].
  injection H as <-. eexists. split; [change (MakeStep (S (t_latest t)) :: StepFile (S (t_latest t)) "training_config.yaml" :: o ++ [TruncTrain; DumpTrain {| t_latest := S (t_latest t); t_steps := nset (S (t_latest t)) 0 (t_steps t) |}]) with
    ((MakeStep (S (t_latest t)) :: StepFile (S (t_latest t)) "training_config.yaml" :: o) ++ [TruncTrain; DumpTrain {| t_latest := S (t_latest t); t_steps := nset (S (t_latest t)) 0 (t_steps t) |}]); rewrite run_app'; reflexivity|].
  cbn [t_latest t_steps]. rewrite nget_nset_same. discriminate.
Qed.

Lemma save_trained D k pr de tr st w ops : M_Checkpoint.save df D true k pr de tr st w = (ops, None) -> trained D \/ tr <> None -> trained (run ops D).
Proof.
  unfold M_Checkpoint.save. intros H HT. destruct tr as [cs|].
  - destruct (save_training_settings D cs) as [o1 [e|]] eqn:E; [discriminate|]. destruct (M_Checkpoint.save_weights df (run o1 D) true k pr de st w) as [o2 e2] eqn:E2.
    injection H as <- ->. rewrite run_app'. eapply save_weights_trained; [exact E2|]. eapply settings_trained. exact E.
  - cbn [run fold_left app] in H. destruct (M_Checkpoint.save_weights df D true k pr de st w) as [o2 e2] eqn:E2. injection H as <- ->.
    eapply save_weights_trained; [exact E2|]. destruct HT as [HT|HT]; [exact HT|congruence].
Qed.

End Loads.
