(** Lemmas for [T_Scripts]. *)
From Verif Require Import Py PyFacts PyStr PyStrFacts M_Component M_Build M_Handler M_Scripts S_Scripts.

(** ** Paths *)

Lemma path_eqb_eq p q : path_eqb p q = true <-> p = q.
Proof.
  unfold path_eqb. revert q. induction p as [|x p IH]; intros [|y q]; simpl; split; intro H; try discriminate; try reflexivity.
  - apply andb_true_iff in H. destruct H as [H1 H2]. apply String.eqb_eq in H1. apply IH in H2. subst. reflexivity.
  - inversion H; subst. rewrite String.eqb_refl. simpl. apply IH. reflexivity.
Qed.

Lemma path_eqb_refl p : path_eqb p p = true.
Proof. apply path_eqb_eq. reflexivity. Qed.

Lemma path_eqb_neq p q : p <> q -> path_eqb p q = false.
Proof. intro H. destruct (path_eqb p q) eqn:E; [|reflexivity]. apply path_eqb_eq in E. contradiction. Qed.

Lemma relative_some p q r : relative p q = Some r <-> q = p ++ r.
Proof.
  revert q. induction p as [|x p IH]; intros q; simpl.
  - split; intro H; [inversion H; reflexivity|subst; reflexivity].
  - destruct q as [|y q]; [split; discriminate|]. destruct (String.eqb x y) eqn:E.
    + apply String.eqb_eq in E. subst. rewrite IH. split; intro H; [subst; reflexivity|inversion H; reflexivity].
    + split; [discriminate|]. intro H. inversion H; subst. rewrite String.eqb_refl in E. discriminate.
Qed.

Lemma below_under p q : below p q = true <-> Under p q.
Proof.
  unfold below, Under. destruct (relative p q) as [r|] eqn:E.
  - apply relative_some in E. split; [intros _; exists r; exact E|reflexivity].
  - split; [discriminate|]. intros [r H]. apply relative_some in H. congruence.
Qed.

Lemma below_not p q : below p q = false <-> ~ Under p q.
Proof. rewrite <- below_under. destruct (below p q); split; congruence. Qed.

Lemma under_dec p q : {Under p q} + {~ Under p q}.
Proof. destruct (below p q) eqn:E; [left; apply below_under; exact E|right; apply below_not; exact E]. Qed.

Lemma under_refl p : Under p p.
Proof. exists []. rewrite app_nil_r. reflexivity. Qed.

Lemma under_app p q : Under p (p ++ q).
Proof. exists q. reflexivity. Qed.

Lemma under_trans p q r : Under p q -> Under q r -> Under p r.
Proof. intros [a ->] [b ->]. exists (a ++ b). rewrite app_assoc. reflexivity. Qed.

Lemma splitext_root_cases s : (exists base ext, s = (base ++ String "." ext)%string /\ has_non_dot base = true /\ before_last_dot ext = None /\ splitext_root s = base)
  \/ splitext_root s = s /\ (forall base ext, s = (base ++ String "." ext)%string -> has_non_dot base = true -> before_last_dot ext = None -> False).
Proof.
  unfold splitext_root. destruct (before_last_dot s) as [b|] eqn:E.
  - destruct (before_last_dot_inv _ _ E) as [e [-> He]]. destruct (has_non_dot b) eqn:Hb.
    + left. exists b, e. auto.
    + right. split; [reflexivity|]. intros base ext H1 H2 H3. rewrite H1 in E.
      rewrite before_last_dot_app in E by exact H3. inversion E; subst. congruence.
  - right. split; [reflexivity|]. intros base ext H1 H2 H3. rewrite H1 in E.
    rewrite before_last_dot_app in E by exact H3. discriminate.
Qed.

Lemma append_length_lt a e : (a ++ String "." e)%string <> a.
Proof.
  induction a as [|c a IH]; simpl; intro H; [discriminate|]. inversion H. contradiction.
Qed.

Lemma path_last (p : path) : p = [] \/ exists up s, p = up ++ [s].
Proof. destruct p using rev_ind; [left; reflexivity|right; eauto]. Qed.

Lemma splitext_stripped p : Stripped p (splitext_path p).
Proof.
  destruct (path_last p) as [->|(up & s & ->)].
  - apply Stripped_same. intros (up & b & e & H & _). destruct up; discriminate.
  - rewrite splitext_path_snoc. destruct (splitext_root_cases s) as [(b & e & -> & H1 & H2 & ->)|[-> H]].
    + apply Stripped_ext; assumption.
    + apply Stripped_same. intros (up' & b & e & H1 & H2 & H3). apply app_inj_tail in H1. destruct H1 as [_ ->]. eapply H; eauto.
Qed.

Lemma stripped_fun p q : Stripped p q -> q = splitext_path p.
Proof.
  intro H. destruct H as [up b e H1 H2|p H].
  - rewrite splitext_path_snoc, splitext_root_ext by assumption. reflexivity.
  - destruct (path_last p) as [->|(up & s & ->)]; [reflexivity|]. rewrite splitext_path_snoc.
    destruct (splitext_root_cases s) as [(b & e & -> & H1 & H2 & E)|[-> _]]; [|reflexivity].
    exfalso. apply H. exists up, b, e. auto.
Qed.

Lemma extension_apart p : HasExtension p -> splitext_path p <> p.
Proof.
  intros (up & b & e & -> & H1 & H2) E. rewrite splitext_path_snoc, splitext_root_ext in E by assumption.
  apply app_inj_tail in E. destruct E as [_ E]. symmetry in E. exact (append_length_lt _ _ E).
Qed.

Lemma splitext_length p : length (splitext_path p) = length p.
Proof.
  destruct (path_last p) as [->|(up & s & ->)]; [reflexivity|]. rewrite splitext_path_snoc, !app_length. reflexivity.
Qed.

Lemma under_same_length p q r : length p = length q -> Under p r -> Under q r -> p = q.
Proof.
  intros L [a ->] [b H]. revert q L H. induction p as [|x p IH]; intros [|y q] L H; simpl in *; try discriminate; [reflexivity|].
  inversion H; subst. f_equal. apply IH; [lia|assumption].
Qed.

Lemma extension_disjoint p r : HasExtension p -> Under (splitext_path p) r -> Under p r -> False.
Proof.
  intros H H1 H2. apply (extension_apart p H). eapply under_same_length; [apply splitext_length|exact H1|exact H2].
Qed.

(** ** Files *)

Lemma file_content d q c : file_at q d = Some c <-> Content d q c.
Proof.
  induction d as [|[p c'] d IH]; simpl.
  - split; [discriminate|]. intro H; inversion H.
  - destruct (path_eqb q p) eqn:E.
    + apply path_eqb_eq in E. subst. split; intro H; [inversion H; constructor|]. inversion H; subst; [reflexivity|congruence].
    + assert (N : q <> p) by (intros ->; rewrite path_eqb_refl in E; discriminate).
      rewrite IH. split; intro H; [apply Content_later; assumption|]. inversion H; subst; [congruence|assumption].
Qed.

Lemma file_missing d q : file_at q d = None <-> Missing d q.
Proof.
  unfold Missing. destruct (file_at q d) as [c|] eqn:E.
  - split; [discriminate|]. intro H. exfalso. apply (H c). apply file_content. exact E.
  - split; [|reflexivity]. intros _ c H. apply file_content in H. congruence.
Qed.

Lemma untouched_iff d d' q : Untouched d d' q <-> file_at q d' = file_at q d.
Proof.
  unfold Untouched. split.
  - intro H. destruct (file_at q d) as [c|] eqn:E.
    + apply file_content. apply H. apply file_content. exact E.
    + destruct (file_at q d') as [c|] eqn:E'; [|reflexivity]. exfalso. apply file_content in E'. apply H in E'. apply file_content in E'. congruence.
  - intros H c. rewrite <- !file_content, H. reflexivity.
Qed.

Lemma in_present d q c : In (q, c) d -> exists c', file_at q d = Some c'.
Proof.
  induction d as [|[p c'] d IH]; simpl; intro H; [contradiction|]. destruct (path_eqb q p) eqn:E; [eauto|].
  destruct H as [H|H]; [inversion H; subst; rewrite path_eqb_refl in E; discriminate|auto].
Qed.

Lemma file_in d q c : file_at q d = Some c -> In (q, c) d.
Proof.
  induction d as [|[p c'] d IH]; simpl; [discriminate|]. destruct (path_eqb q p) eqn:E; intro H.
  - apply path_eqb_eq in E. inversion H; subst. left. reflexivity.
  - right. auto.
Qed.

Lemma exists_present p d : exists_at p d = true <-> Present d p.
Proof.
  unfold exists_at, Present. rewrite existsb_exists. split.
  - intros [[q c] [H1 H2]]. apply below_under in H2. destruct (in_present _ _ _ H1) as [c' H]. exists q, c'. split; [exact H2|apply file_content; exact H].
  - intros (q & c & H1 & H2). apply file_content, file_in in H2. exists (q, c). split; [exact H2|apply below_under; exact H1].
Qed.

Lemma exists_false p d : exists_at p d = false <-> ~ Present d p.
Proof. rewrite <- exists_present. destruct (exists_at p d); split; congruence. Qed.

Lemma file_write p c d q : file_at q (write p c d) = if path_eqb q p then Some c else file_at q d.
Proof.
  unfold write. simpl. destruct (path_eqb q p) eqn:E; [reflexivity|].
  induction d as [|[x y] d IH]; simpl; [reflexivity|].
  destruct (path_eqb p x) eqn:E1; simpl.
  - apply path_eqb_eq in E1. subst. rewrite E. exact IH.
  - destruct (path_eqb q x); [reflexivity|exact IH].
Qed.

Lemma file_remove p d q : file_at q (remove p d) = if below p q then None else file_at q d.
Proof.
  unfold remove. induction d as [|[x y] d IH]; simpl; [destruct (below p q); reflexivity|].
  destruct (below p x) eqn:E; simpl.
  - rewrite IH. destruct (path_eqb q x) eqn:E1; [|reflexivity]. apply path_eqb_eq in E1. subst. rewrite E. reflexivity.
  - rewrite IH. destruct (path_eqb q x) eqn:E1; [|reflexivity]. apply path_eqb_eq in E1. subst. rewrite E. reflexivity.
Qed.

Lemma tree_file p d r : file_at r (tree p d) = file_at (p ++ r) d.
Proof.
  unfold tree. induction d as [|[x y] d IH]; [reflexivity|]. cbn [flat_map fst snd].
  destruct (relative p x) as [r'|] eqn:E.
  - apply relative_some in E. subst. cbn [app file_at]. destruct (path_eqb r r') eqn:E1.
    + apply path_eqb_eq in E1. subst. rewrite path_eqb_refl. reflexivity.
    + rewrite path_eqb_neq; [exact IH|]. intro H. apply app_inv_head in H. subst. rewrite path_eqb_refl in E1. discriminate.
  - cbn [app file_at]. rewrite path_eqb_neq; [exact IH|]. intro H. symmetry in H. apply relative_some in H. congruence.
Qed.

Lemma tree_empty p d : ~ Present d p -> tree p d = [].
Proof.
  intro H. apply exists_false in H. unfold tree, exists_at in *. induction d as [|[x y] d IH]; [reflexivity|].
  cbn [existsb fst] in H. apply orb_false_iff in H. destruct H as [H1 H2]. unfold below in H1. cbn [flat_map fst snd].
  destruct (relative p x); [discriminate|]. exact (IH H2).
Qed.

Lemma present_remove p d : ~ Present (remove p d) p.
Proof.
  intros (q & c & H1 & H2). apply file_content in H2. rewrite file_remove in H2.
  apply below_under in H1. rewrite H1 in H2. discriminate.
Qed.

Lemma present_under p q d : Under p q -> Present d q -> Present d p.
Proof. intros H (r & c & H1 & H2). exists r, c. split; [eapply under_trans; eassumption|exact H2]. Qed.

Lemma present_file p d : is_file p d = true -> Present d p.
Proof.
  unfold is_file. destruct (file_at p d) as [c|] eqn:E; [|discriminate]. intros _. exists p, c. split; [apply under_refl|apply file_content; exact E].
Qed.

(** ** Actions *)

Lemma andthen_inv {A B} (a : act A) (f : A -> act B) d d' ev r : andthen a f d = (d', ev, r) ->
  (exists e, a d = (d', ev, Err e) /\ r = Err e) \/
  (exists x d1 ev1 ev2, a d = (d1, ev1, Ok x) /\ f x d1 = (d', ev2, r) /\ ev = ev1 ++ ev2).
Proof.
  unfold andthen. destruct (a d) as [[d1 ev1] [x|e]].
  - destruct (f x d1) as [[d2 ev2] r2] eqn:E. intro H. inversion H; subst. right. exists x, d1, ev1, ev2. auto.
  - intro H. inversion H; subst. left. eauto.
Qed.

Lemma andthen_ok {A B} (a : act A) (f : A -> act B) d d1 ev1 x : a d = (d1, ev1, Ok x) ->
  andthen a f d = let '(d2, ev2, r2) := f x d1 in (d2, ev1 ++ ev2, r2).
Proof. intro H. unfold andthen. rewrite H. reflexivity. Qed.

Lemma andthen_pure {A B} (a : act A) (f : A -> act B) d x : a d = (d, [], Ok x) -> andthen a f d = f x d.
Proof. intro H. rewrite (andthen_ok _ _ _ _ _ _ H). destruct (f x d) as [[d2 ev2] r2]. reflexivity. Qed.

Lemma andthen_err {A B} (a : act A) (f : A -> act B) d d1 ev1 e : a d = (d1, ev1, Err e) -> andthen a f d = (d1, ev1, Err e).
Proof. intro H. unfold andthen. rewrite H. reflexivity. Qed.

Lemma andthen_change {B} f (g : unit -> act B) d : andthen (change f) g d = g tt (f d).
Proof. unfold andthen, change. destruct (g tt (f d)) as [[d2 ev2] r2]. reflexivity. Qed.

Lemma andthen_look {A B} (f : disk -> result A) (g : A -> act B) d x : f d = Ok x -> andthen (look f) g d = g x d.
Proof. intro H. apply andthen_pure. unfold look. rewrite H. reflexivity. Qed.

Lemma andthen_lift {A B} (r : result A) (g : A -> act B) d x : r = Ok x -> andthen (lift r) g d = g x d.
Proof. intros ->. apply andthen_pure. reflexivity. Qed.

Lemma andthen_note {B} e (g : unit -> act B) d : andthen (note e) g d = let '(d2, ev2, r2) := g tt d in (d2, e :: ev2, r2).
Proof. reflexivity. Qed.

(** The files of a set of names stay as they are *)
Definition Keeps {A} (P : path -> Prop) (a : act A) : Prop :=
  forall d d' ev r, a d = (d', ev, r) -> forall q, P q -> file_at q d' = file_at q d.

Lemma keeps_ret {A} P (x : A) : Keeps P (ret x).
Proof. intros d d' ev r H q _. inversion H; subst. reflexivity. Qed.
Lemma keeps_lift {A} P (x : result A) : Keeps P (lift x).
Proof. intros d d' ev r H q _. inversion H; subst. reflexivity. Qed.
Lemma keeps_look {A} P (f : disk -> result A) : Keeps P (look f).
Proof. intros d d' ev r H q _. inversion H; subst. reflexivity. Qed.
Lemma keeps_note P e : Keeps P (note e).
Proof. intros d d' ev r H q _. inversion H; subst. reflexivity. Qed.
Lemma keeps_andthen {A B} P (a : act A) (f : A -> act B) : Keeps P a -> (forall x, Keeps P (f x)) -> Keeps P (andthen a f).
Proof.
  intros Ha Hf d d' ev r H q Hq. apply andthen_inv in H. destruct H as [(e & H & _)|(x & d1 & ev1 & ev2 & H1 & H2 & _)].
  - eapply Ha; eauto.
  - rewrite (Hf x _ _ _ _ H2 q Hq). eapply Ha; eauto.
Qed.
Lemma keeps_write (P : path -> Prop) p c : ~ P p -> Keeps P (change (write p c)).
Proof.
  intros N d d' ev r H q Hq. inversion H; subst. rewrite file_write, path_eqb_neq; [reflexivity|]. intros ->. contradiction.
Qed.
Lemma keeps_remove (P : path -> Prop) p : (forall q, P q -> ~ Under p q) -> Keeps P (change (remove p)).
Proof.
  intros N d d' ev r H q Hq. inversion H; subst. rewrite file_remove. apply N in Hq. apply below_not in Hq. rewrite Hq. reflexivity.
Qed.
Lemma keeps_confirm P answer p : Keeps P (confirm answer p).
Proof. apply keeps_andthen; [apply keeps_note|]. intros _. destruct answer; [apply keeps_ret|apply keeps_lift]. Qed.
Lemma keeps_rmtree (P : path -> Prop) p : (forall q, P q -> ~ Under p q) -> Keeps P (rmtree p).
Proof.
  intro N. apply keeps_andthen; [apply keeps_look|]. intros []; [apply keeps_lift|].
  apply keeps_andthen; [apply keeps_remove; exact N|intros; apply keeps_note].
Qed.
Lemma keeps_save_all (P : path -> Prop) ov p l : (forall q, P q -> ~ Under p q) -> Keeps P (save_all ov p l).
Proof.
  intro N. assert (W : forall q c, Keeps P (change (write (p ++ q) c))).
  { intros q c. apply keeps_write. intro H. apply (N _ H). apply under_app. }
  induction l as [|[q conf data|q c] l IH]; cbn [save_all]; [apply keeps_ret| |].
  - apply keeps_andthen; [apply keeps_look|]. intros b. destruct (b && negb ov); [apply keeps_lift|].
    apply keeps_andthen; [apply W|]. intros _. apply keeps_andthen; [apply W|]. intros _. exact IH.
  - apply keeps_andthen; [apply W|]. intros _. exact IH.
Qed.
Lemma keeps_save (P : path -> Prop) ov p l : (forall q, P q -> ~ Under (splitext_path p) q) -> Keeps P (save_at ov p l).
Proof. intro N. apply keeps_andthen; [apply keeps_note|]. intros _. apply keeps_save_all. exact N. Qed.

(** All noticeable things are of one kind *)
Definition Only {A} (E : event -> Prop) (a : act A) : Prop :=
  forall d d' ev r, a d = (d', ev, r) -> Forall E ev.

Lemma only_ret {A} E (x : A) : Only E (ret x).
Proof. intros d d' ev r H. inversion H; subst. constructor. Qed.
Lemma only_lift {A} E (x : result A) : Only E (lift x).
Proof. intros d d' ev r H. inversion H; subst. constructor. Qed.
Lemma only_look {A} E (f : disk -> result A) : Only E (look f).
Proof. intros d d' ev r H. inversion H; subst. constructor. Qed.
Lemma only_change E f : Only E (change f).
Proof. intros d d' ev r H. inversion H; subst. constructor. Qed.
Lemma only_note (E : event -> Prop) e : E e -> Only E (note e).
Proof. intros He d d' ev r H. inversion H; subst. constructor; [exact He|constructor]. Qed.
Lemma only_andthen {A B} E (a : act A) (f : A -> act B) : Only E a -> (forall x, Only E (f x)) -> Only E (andthen a f).
Proof.
  intros Ha Hf d d' ev r H. apply andthen_inv in H. destruct H as [(e & H & _)|(x & d1 & ev1 & ev2 & H1 & H2 & ->)].
  - eapply Ha; eauto.
  - apply Forall_app. split; [eapply Ha; eauto|eapply Hf; eauto].
Qed.
Lemma only_save_all E ov p l : Only E (save_all ov p l).
Proof.
  induction l as [|[q conf data|q c] l IH]; cbn [save_all]; [apply only_ret| |].
  - apply only_andthen; [apply only_look|]. intros b. destruct (b && negb ov); [apply only_lift|].
    apply only_andthen; [apply only_change|]. intros _. apply only_andthen; [apply only_change|]. intros _. exact IH.
  - apply only_andthen; [apply only_change|]. intros _. exact IH.
Qed.

(** Actions that only look *)
Definition Pure {A} (a : act A) : Prop := forall d d' ev r, a d = (d', ev, r) -> d' = d.

Lemma pure_ret {A} (x : A) : Pure (ret x).
Proof. intros d d' ev r H. inversion H; subst. reflexivity. Qed.
Lemma pure_lift {A} (x : result A) : Pure (lift x).
Proof. intros d d' ev r H. inversion H; subst. reflexivity. Qed.
Lemma pure_look {A} (f : disk -> result A) : Pure (look f).
Proof. intros d d' ev r H. inversion H; subst. reflexivity. Qed.
Lemma pure_note e : Pure (note e).
Proof. intros d d' ev r H. inversion H; subst. reflexivity. Qed.
Lemma pure_andthen {A B} (a : act A) (f : A -> act B) : Pure a -> (forall x, Pure (f x)) -> Pure (andthen a f).
Proof.
  intros Ha Hf d d' ev r H. apply andthen_inv in H. destruct H as [(e & H & _)|(x & d1 & ev1 & ev2 & H1 & H2 & _)].
  - eapply Ha; eauto.
  - rewrite (Hf x _ _ _ _ H2). eapply Ha; eauto.
Qed.

(** ** Settings *)

Lemma setting_vget v k x : vget v k = Ok x <-> Setting v [k] x.
Proof.
  unfold vget. split.
  - destruct v; try discriminate. destruct (dget k d) as [y|] eqn:E; [|discriminate]. intro H. inversion H; subst.
    eapply Setting_in; [exact E|constructor].
  - intro H. inversion H as [|? ? ? y ? H1 H2]; subst. inversion H2; subst. rewrite H1. reflexivity.
Qed.

Lemma setting_cons v k ks x : ks <> [] -> (Setting v (k :: ks) x <-> exists y, vget v k = Ok y /\ Setting y ks x).
Proof.
  intros _. split.
  - intro H. inversion H as [|d ? ? y ? H1 H2]; subst. exists y. split; [unfold vget; rewrite H1; reflexivity|exact H2].
  - intros (y & H1 & H2). apply setting_vget in H1. inversion H1 as [|d ? ? z ? H3 H4]; subst. inversion H4; subst. econstructor; eassumption.
Qed.

Lemma truthy_true v : truthy v = true <-> True_value v.
Proof.
  unfold truthy, True_value. destruct v as [| b | z | s | l | l | d].
  - split; [discriminate|]. intros [H _]. congruence.
  - destruct b; split; intro H; try discriminate; try reflexivity.
    + repeat split; discriminate.
    + destruct H as (_ & H & _). congruence.
  - split; intro H.
    + apply negb_true_iff, Z.eqb_neq in H. repeat split; try discriminate. congruence.
    + apply negb_true_iff, Z.eqb_neq. intros ->. destruct H as (_ & _ & H & _). congruence.
  - split; intro H.
    + apply negb_true_iff, String.eqb_neq in H. repeat split; try discriminate. congruence.
    + apply negb_true_iff, String.eqb_neq. intros ->. destruct H as (_ & _ & _ & H & _). congruence.
  - destruct l; split; intro H; try discriminate; try reflexivity.
    + destruct H as (_ & _ & _ & _ & H & _). congruence.
    + repeat split; discriminate.
  - destruct l; split; intro H; try discriminate; try reflexivity.
    + destruct H as (_ & _ & _ & _ & _ & H & _). congruence.
    + repeat split; discriminate.
  - destruct d; split; intro H; try discriminate; try reflexivity.
    + destruct H as (_ & _ & _ & _ & _ & _ & H). congruence.
    + repeat split; discriminate.
Qed.

(** ** Saving *)

Lemma save_all_part ov p q conf data l d : save_all ov p (Part q conf data :: l) d =
  if (exists_at (p ++ q ++ ["configuration.yaml"]) d || exists_at (p ++ q ++ ["data.pickle"]) d) && negb ov then (d, [], Err IOError)
  else save_all ov p l (write (p ++ q ++ ["data.pickle"]) data (write (p ++ q ++ ["configuration.yaml"]) conf d)).
Proof.
  cbn [save_all]. erewrite andthen_look by reflexivity.
  destruct ((exists_at (p ++ q ++ ["configuration.yaml"]) d || exists_at (p ++ q ++ ["data.pickle"]) d) && negb ov); [reflexivity|].
  rewrite !andthen_change. reflexivity.
Qed.

Lemma save_all_more ov p q c l d : save_all ov p (More q c :: l) d = save_all ov p l (write (p ++ q) c d).
Proof. cbn [save_all]. rewrite andthen_change. reflexivity. Qed.

Lemma save_all_overwrite p l d : exists d', save_all true p l d = (d', [], Ok tt).
Proof.
  revert d. induction l as [|[q conf data|q c] l IH]; intro d.
  - eexists. reflexivity.
  - rewrite save_all_part, andb_false_r. apply IH.
  - rewrite save_all_more. apply IH.
Qed.

Lemma save_all_events ov p l d d' ev r : save_all ov p l d = (d', ev, r) -> ev = [].
Proof.
  intro H. pose proof (only_save_all (fun _ => False) ov p l _ _ _ _ H) as F. destruct ev as [|e ev]; [reflexivity|]. inversion F. contradiction.
Qed.

(** Only the names of [Output] are written. *)
Lemma save_all_others ov p l d d' ev r q : save_all ov p l d = (d', ev, r) ->
  (forall n c, Output l n c -> q <> p ++ n) -> file_at q d' = file_at q d.
Proof.
  revert d d' ev r. induction l as [|[n conf data|n c] l IH]; intros d d' ev r H N.
  - inversion H; subst. reflexivity.
  - rewrite save_all_part in H. match type of H with context [if ?b then _ else _] => destruct b end; [inversion H; subst; reflexivity|].
    rewrite (IH _ _ _ _ H) by (intros x y Hx; apply (N x y); apply Output_later; exact Hx).
    rewrite !file_write, !path_eqb_neq; [reflexivity| |].
    + apply (N _ conf). apply Output_conf.
    + apply (N _ data). apply Output_data.
  - rewrite save_all_more in H. rewrite (IH _ _ _ _ H) by (intros x y Hx; apply (N x y); apply Output_later; exact Hx).
    rewrite file_write, path_eqb_neq; [reflexivity|]. apply (N _ c). apply Output_more.
Qed.

Lemma once_tail w l : Once (w :: l) -> Once l.
Proof. intros H l1 x l2 -> . apply (H (w :: l1) x l2). reflexivity. Qed.

Lemma conf_data_apart (q : path) : q ++ ["configuration.yaml"%string] <> q ++ ["data.pickle"%string].
Proof. intro H. apply app_inv_head in H. discriminate. Qed.

(** After a complete saving all files are there. *)
Lemma save_all_done ov p l d d' ev : save_all ov p l d = (d', ev, Ok tt) -> Once l ->
  forall n c, Output l n c -> file_at (p ++ n) d' = Some c.
Proof.
  revert d d' ev. induction l as [|w l IH]; intros d d' ev H O n c Hn; [inversion Hn|].
  assert (K : forall q x, Output [w] q x -> forall a b ev' r, save_all ov p l a = (b, ev', r) -> file_at (p ++ q) b = file_at (p ++ q) a).
  { intros q x Hq a b ev' r Hs. eapply save_all_others; [exact Hs|]. intros m y Hm E. apply app_inv_head in E. subst m.
    exact (O [] w l eq_refl _ _ _ Hq Hm). }
  destruct w as [q conf data|q x].
  - rewrite save_all_part in H. match type of H with context [if ?b then _ else _] => destruct b end; [discriminate|].
    inversion Hn; subst.
    + rewrite (K _ c (Output_conf _ _ _ _) _ _ _ _ H). rewrite !file_write.
      rewrite path_eqb_neq by (intro E; apply app_inv_head in E; exact (conf_data_apart _ E)).
      rewrite path_eqb_refl. reflexivity.
    + rewrite (K _ c (Output_data _ _ _ _) _ _ _ _ H). rewrite file_write, path_eqb_refl. reflexivity.
    + eapply IH; [exact H|eapply once_tail; exact O|assumption].
  - rewrite save_all_more in H. inversion Hn; subst.
    + rewrite (K _ c (Output_more _ _ _) _ _ _ _ H). rewrite file_write, path_eqb_refl. reflexivity.
    + eapply IH; [exact H|eapply once_tail; exact O|assumption].
Qed.

Lemma write_present p c d q : Present d q -> Present (write p c d) q.
Proof.
  intros (x & y & H1 & H2). apply file_content in H2. destruct (path_eqb x p) eqn:E.
  - exists x, c. split; [exact H1|]. apply file_content. rewrite file_write, E. reflexivity.
  - exists x, y. split; [exact H1|]. apply file_content. rewrite file_write, E. exact H2.
Qed.

Lemma write_here p c d : Present (write p c d) p.
Proof. exists p, c. split; [apply under_refl|]. apply file_content. rewrite file_write, path_eqb_refl. reflexivity. Qed.

Lemma write_present_inv p c d q : Present (write p c d) q -> Present d q \/ Under q p.
Proof.
  intros (x & y & H1 & H2). apply file_content in H2. rewrite file_write in H2. destruct (path_eqb x p) eqn:E.
  - right. apply path_eqb_eq in E. subst. exact H1.
  - left. exists x, y. split; [exact H1|apply file_content; exact H2].
Qed.

Lemma save_all_present ov p l d d' ev r q : save_all ov p l d = (d', ev, r) -> Present d q -> Present d' q.
Proof.
  revert d d' ev r. induction l as [|[n conf data|n c] l IH]; intros d d' ev r H N.
  - inversion H; subst. exact N.
  - rewrite save_all_part in H. match type of H with context [if ?b then _ else _] => destruct b end; [inversion H; subst; exact N|]. eapply IH; [exact H|]. apply write_present, write_present. exact N.
  - rewrite save_all_more in H. eapply IH; [exact H|]. apply write_present. exact N.
Qed.

(** Whatever is written twice or not, every name is there in the end. *)
Lemma save_all_there ov p l d d' ev n c : save_all ov p l d = (d', ev, Ok tt) -> Output l n c -> Present d' (p ++ n).
Proof.
  revert d d' ev. induction l as [|w l IH]; intros d d' ev H Hn; [inversion Hn|].
  destruct w as [q conf data|q x].
  - rewrite save_all_part in H. match type of H with context [if ?b then _ else _] => destruct b end; [discriminate|].
    inversion Hn; subst.
    + eapply save_all_present; [exact H|]. apply write_present, write_here.
    + eapply save_all_present; [exact H|]. apply write_here.
    + eapply IH; eassumption.
  - rewrite save_all_more in H. inversion Hn; subst.
    + eapply save_all_present; [exact H|]. apply write_here.
    + eapply IH; eassumption.
Qed.

Lemma is_dir_present p d : is_dir p d = true -> Present d p.
Proof.
  unfold is_dir. intro H. apply existsb_exists in H. destruct H as [[q c] [H1 H2]]. cbn [fst] in H2.
  apply exists_present. unfold exists_at. apply existsb_exists. exists (q, c). split; [exact H1|]. unfold below. cbn [fst].
  destruct (relative p q); [reflexivity|discriminate].
Qed.

Lemma xp_refl : veqb (VStr "x_parameters") (VStr "x_parameters") = true.
Proof. reflexivity. Qed.

Lemma veqb_str v s : veqb v (VStr s) = true -> v = VStr s.
Proof.
  destruct v as [|b|z|x|l|l|d]; cbn; intro E; try discriminate; [destruct b; discriminate|].
  apply String.eqb_eq in E. subst. reflexivity.
Qed.

Lemma others_filter l r : Others l r <-> r = filter (fun v => negb (veqb v (VStr "x_parameters"))) l.
Proof.
  split.
  - intro H. induction H as [|l r H IH|v l r N H IH]; [reflexivity|cbn [filter]; rewrite xp_refl; exact IH|].
    cbn [filter]. destruct (veqb v (VStr "x_parameters")) eqn:E; [|cbn; rewrite <- IH; reflexivity].
    exfalso. apply N. apply veqb_str. exact E.
  - revert r. induction l as [|v l IH]; intros r ->; cbn [filter]; [constructor|].
    destruct (veqb v (VStr "x_parameters")) eqn:E; cbn [negb].
    + assert (v = VStr "x_parameters") as -> by (apply veqb_str; exact E).
      constructor. apply IH. reflexivity.
    + constructor; [intros ->; rewrite xp_refl in E; discriminate|]. apply IH. reflexivity.
Qed.

Lemma seed_names_spec seed names : seed_names seed = Ok names <-> SeedNames seed names.
Proof.
  unfold seed_names. split.
  - destruct seed as [| | |s|l|l|d]; cbn [bind]; intro H; try discriminate; inversion H; subst.
    + clear H. destruct (String.eqb s "x_parameters") eqn:E; cbn [negb].
      * apply String.eqb_eq in E. subst. constructor.
      * apply String.eqb_neq in E. constructor. exact E.
    + constructor. apply others_filter. reflexivity.
    + constructor. apply others_filter. reflexivity.
    + apply Seed_keys. apply others_filter. reflexivity.
  - intro H. destruct H as [s N| |l r H|l r H|d r H]; cbn [bind].
    + cbn [filter]. destruct (veqb (VStr s) (VStr "x_parameters")) eqn:E; [|reflexivity]. cbn in E. apply String.eqb_eq in E. contradiction.
    + reflexivity.
    + apply others_filter in H. subst. reflexivity.
    + apply others_filter in H. subst. reflexivity.
    + apply others_filter in H. subst. reflexivity.
Qed.

Definition names_written (w : written) : list path :=
  match w with
  | Part q _ _ => [q ++ ["configuration.yaml"%string]; q ++ ["data.pickle"%string]]
  | More q _ => [q]
  end.

Lemma output_names l q c : Output l q c -> In q (flat_map names_written l).
Proof.
  intro H. induction H as [q conf data l|q conf data l|q c l|w q c l H IH]; cbn [flat_map names_written app In]; auto.
  apply in_or_app. right. exact IH.
Qed.

Lemma once_nodup l : NoDup (flat_map names_written l) -> Once l.
Proof.
  intros N l1 w l2 -> q c c' H1 H2. apply output_names in H1. apply output_names in H2.
  rewrite flat_map_app in N. cbn [flat_map] in *. rewrite app_nil_r in H1.
  induction (flat_map names_written l1) as [|x l IH]; [|inversion N; auto]. cbn [app] in N.
  induction (names_written w) as [|y ys IH]; [inversion H1|]. inversion N as [|? ? N1 N2]; subst. destruct H1 as [->|H1]; [|auto].
  apply N1. apply in_or_app. right. exact H2.
Qed.
