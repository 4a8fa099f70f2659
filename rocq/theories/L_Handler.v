(** Lemmas about the data handler. *)
From Verif Require Import Py PyFacts M_Tensor S_Tensor L_Tensor T_Tensor M_Batch S_Batch T_Batch
  M_Handler S_Handler.
From Coq Require Import Sorting.Sorted.

Lemma bind_ok {A B} (r : result A) (f : A -> result B) y :
  bind r f = Ok y -> exists x, r = Ok x /\ f x = Ok y.
Proof. destruct r; simpl; intros H; [eauto|discriminate]. Qed.

Lemma exists_dec t : {Exists t} + {~ Exists t}.
Proof. unfold Exists. destruct (truthy _); [left|right]; congruence. Qed.

Lemma part_of_type_name p : part_of_type (type_name p) = Some p.
Proof. destruct p; reflexivity. Qed.

Lemma type_name_inj p q : type_name p = type_name q -> p = q.
Proof. destruct p, q; simpl; congruence. Qed.

Lemma calls_iff m f g : read_name m = Some (f, g) <-> Calls m f g.
Proof.
  split.
  - unfold read_name. destruct (String.eqb m "get_from_hdf") eqn:E1.
    { apply String.eqb_eq in E1. intros H; inversion H; subst. constructor. }
    destruct (String.eqb m "get_from_frame") eqn:E2.
    { apply String.eqb_eq in E2. intros H; inversion H; subst. constructor. }
    destruct (String.eqb m "create_from_frame") eqn:E3; [|discriminate].
    apply String.eqb_eq in E3. intros H; inversion H; subst. constructor.
  - intros H; destruct H; reflexivity.
Qed.

(** ** Tensor lists *)

Lemma built_sorted tl : Built tl -> SortedByName (tl_list tl).
Proof. intros (ts & H). apply C13_sorted_permutation in H. tauto. Qed.

Lemma built_index tl j t : Built tl -> nth_error (tl_list tl) j = Some t -> get_index tl (t_name t) = Ok j.
Proof.
  intros (ts & H) E. destruct (C13_lookups_inverse ts tl H) as (_ & H2 & _). apply H2. eauto.
Qed.

Lemma built_index_inv tl n j : Built tl -> get_index tl n = Ok j ->
  exists t, nth_error (tl_list tl) j = Some t /\ t_name t = n.
Proof. intros (ts & H) E. destruct (C13_lookups_inverse ts tl H) as (_ & H2 & _). apply H2. exact E. Qed.

Lemma in_tensors h t : Consistent h -> In t (tl_list (h_tensors h)) <-> exists p, In t (tl_list (part_tensors h p)).
Proof.
  intros (_ & _ & HP). split.
  - intros H. apply (Permutation_in _ HP) in H. rewrite !in_app_iff in H.
    destruct H as [H|[H|[H|H]]]; [exists PData|exists PLabel|exists PWeight|exists PMisc]; exact H.
  - intros (p & H). apply (Permutation_in _ (Permutation_sym HP)). rewrite !in_app_iff. destruct p; simpl in H; tauto.
Qed.

Lemma tensor_part h t : Consistent h -> Typed h -> In t (tl_list (h_tensors h)) ->
  exists p, In t (tl_list (part_tensors h p)) /\ part_of_type (t_type t) = Some p.
Proof.
  intros HC HT H. apply in_tensors in H; [|exact HC]. destruct H as (p & H). exists p. split; [exact H|].
  rewrite (HT p t H). apply part_of_type_name.
Qed.

Lemma part_unique h p t : Typed h -> In t (tl_list (part_tensors h p)) -> part_of_type (t_type t) = Some p.
Proof. intros HT H. rewrite (HT p t H). apply part_of_type_name. Qed.

Lemma filter_sorted f l : SortedByName l -> SortedByName (filter f l).
Proof.
  unfold SortedByName. induction 1 as [|a l H IH HF]; simpl; [constructor|].
  destruct (f a); [|exact IH]. constructor; [exact IH|]. rewrite Forall_forall in *. intros x Hx.
  apply filter_In in Hx. apply HF. tauto.
Qed.

Lemma filter_perm {A} (f : A -> bool) l m : Permutation l m -> Permutation (filter f l) (filter f m).
Proof.
  induction 1; simpl.
  - constructor.
  - destruct (f x); [constructor|]; assumption.
  - destruct (f x), (f y); try apply Permutation_refl. constructor.
  - etransitivity; eassumption.
Qed.

Lemma filter_all {A} (f : A -> bool) l : (forall x, In x l -> f x = true) -> filter f l = l.
Proof.
  induction l as [|a l IH]; simpl; intros H; [reflexivity|]. rewrite (H a) by auto. f_equal. apply IH; auto.
Qed.

Lemma filter_none {A} (f : A -> bool) l : (forall x, In x l -> f x = false) -> filter f l = [].
Proof.
  induction l as [|a l IH]; simpl; intros H; [reflexivity|]. rewrite (H a) by auto. apply IH; auto.
Qed.

Lemma part_filter h p : Consistent h -> Typed h ->
  filter (fun t => String.eqb (t_type t) (type_name p)) (tl_list (h_tensors h)) = tl_list (part_tensors h p).
Proof.
  intros (HB & HBt & HP) HT. apply sorted_unique.
  - apply filter_sorted, built_sorted, HBt.
  - apply built_sorted, HB.
  - etransitivity; [apply filter_perm, HP|]. rewrite !filter_app.
    assert (HS : forall q, filter (fun t => String.eqb (t_type t) (type_name p)) (tl_list (part_tensors h q)) =
                   if String.eqb (type_name q) (type_name p) then tl_list (part_tensors h q) else []).
    { intros q. destruct (String.eqb (type_name q) (type_name p)) eqn:E.
      - apply filter_all. intros x Hx. rewrite (HT q x Hx). exact E.
      - apply filter_none. intros x Hx. rewrite (HT q x Hx). exact E. }
    pose proof (HS PData) as H1. pose proof (HS PLabel) as H2. pose proof (HS PWeight) as H3. pose proof (HS PMisc) as H4.
    cbn [part_tensors] in H1, H2, H3, H4. rewrite H1, H2, H3, H4.
    destruct p; simpl; rewrite ?app_nil_r; apply Permutation_refl.
Qed.

(** ** Reading *)

Section Read.
Variable V : Type.
Variable np_shape : tdata V -> option (list Z).
Variable read : part -> string -> result (answer V).
Variable fmask : string -> nat -> batch V -> result (list bool).

Lemma read_all_ok f rs : read_all V read f = Ok rs -> forall p, read p f = Ok (rs p).
Proof.
  unfold read_all. intros H. apply bind_ok in H. destruct H as (d & Hd & H). apply bind_ok in H. destruct H as (l & Hl & H).
  apply bind_ok in H. destruct H as (m & Hm & H). apply bind_ok in H. destruct H as (w & Hw & H).
  inversion H; subst. intros []; assumption.
Qed.

Lemma read_all_intro f rs : (forall p, read p f = Ok (rs p)) ->
  exists rs', read_all V read f = Ok rs' /\ forall p, rs' p = rs p.
Proof.
  intros H. unfold read_all. rewrite (H PData), (H PLabel), (H PMisc), (H PWeight). simpl.
  eexists. split; [reflexivity|]. intros []; reflexivity.
Qed.

Lemma problem_iff h rs p : problem V h rs p = true <-> Missing V h rs p.
Proof.
  unfold problem, Missing. rewrite !andb_true_iff, Nat.ltb_lt. destruct (rs p) as [[n|] [l|]]; simpl; split; intros H;
    try (destruct H as (? & ? & ?); discriminate); try (destruct H; discriminate).
  - split; [|reflexivity]. destruct H as (H & _). intros E. rewrite E in H. simpl in H. lia.
  - destruct H as (H & _). destruct (tl_list _); [congruence|]. simpl. split; [lia|auto].
Qed.

Lemma found_problem_iff h rs : found_problem V h rs = true <-> exists p, Missing V h rs p.
Proof.
  unfold found_problem. rewrite !orb_true_iff, !problem_iff. split.
  - intros [[[H|H]|H]|H]; eauto.
  - intros ([] & H); tauto.
Qed.

Lemma found_problem_ext h rs rs' : (forall p, rs p = rs' p) -> found_problem V h rs = found_problem V h rs'.
Proof. intros H. unfold found_problem, problem. rewrite !H. reflexivity. Qed.

Lemma combine_ext h rs rs' : (forall p, rs p = rs' p) -> forall ts num b,
  combine_entries V h rs ts num b = combine_entries V h rs' ts num b.
Proof.
  intros H. induction ts as [|t ts IH]; intros num b; simpl; [reflexivity|].
  destruct (truthy _); [|apply IH]. destruct (part_of_type _) as [p|]; [|apply IH]. rewrite H.
  destruct (check_num _ _); simpl; [|reflexivity]. destruct (entry _ _ _ _); simpl; [apply IH|reflexivity].
Qed.

(** The entry of tensor [t]. *)
Definition pick (h : handler) (rs : part -> answer V) (t : tensor) : option (tdata V) :=
  if truthy (t_exists t)
  then match part_of_type (t_type t) with
       | Some p => match entry V (part_tensors h p) (t_name t) (snd (rs p)) with Ok x => x | _ => None end
       | None => None
       end
  else None.

Lemma combine_inv h rs : forall ts num b num' b',
  (forall t, In t ts -> exists p, part_of_type (t_type t) = Some p) ->
  combine_entries V h rs ts num b = Ok (num', b') ->
  b' = b ++ map (pick h rs) ts /\
  (forall n, num = Some n -> num' = Some n) /\
  (forall t p, In t ts -> Exists t -> part_of_type (t_type t) = Some p ->
     entry V (part_tensors h p) (t_name t) (snd (rs p)) = Ok (pick h rs t) /\
     (fst (rs p) = num' \/ fst (rs p) = None)) /\
  (forall n, num' = Some n -> num = Some n \/
     exists t p, In t ts /\ Exists t /\ part_of_type (t_type t) = Some p /\ fst (rs p) = Some n).
Proof.
  induction ts as [|t ts IH]; intros num b num' b' HP H; simpl in H.
  - inversion H; subst. simpl. rewrite app_nil_r. split; [reflexivity|]. split; [auto|]. split; [intros t p []|auto].
  - destruct (truthy (t_exists t)) eqn:Ex.
    + destruct (HP t (or_introl eq_refl)) as (p & Hp). rewrite Hp in H.
      apply bind_ok in H. destruct H as (num1 & H1 & H). apply bind_ok in H. destruct H as (x & Hx & H).
      apply IH in H; [|intros u Hu; apply HP; right; exact Hu]. destruct H as (Hb & Hn & Ht & He).
      assert (Px : pick h rs t = x) by (unfold pick; rewrite Ex, Hp, Hx; reflexivity).
      assert (C : (forall n, num = Some n -> num1 = Some n) /\ (fst (rs p) = num1) /\
                  (num = None -> num1 = fst (rs p))).
      { unfold check_num in H1. destruct num as [n|].
        - destruct (fst (rs p)) as [m|]; [|discriminate]. destruct (Nat.eqb n m) eqn:E; [|discriminate].
          apply Nat.eqb_eq in E. inversion H1; subst. repeat split; auto; discriminate.
        - inversion H1; subst. repeat split; auto; discriminate. }
      destruct C as (C1 & C2 & C3).
      split; [rewrite Hb, <- app_assoc; simpl; rewrite Px; reflexivity|].
      split; [auto|]. split.
      * intros u q [->|Hu] Eu Hq.
        -- rewrite Hp in Hq. inversion Hq; subst q. rewrite Px. split; [exact Hx|]. rewrite C2.
           destruct num1 as [n|]; [left; symmetry; apply Hn; reflexivity|right; reflexivity].
        -- apply Ht; assumption.
      * intros n E. destruct (He n E) as [E1|(u & q & Hu & Eu & Hq & Hr)].
        -- right. exists t, p. split; [left; reflexivity|]. split; [exact Ex|]. split; [exact Hp|]. congruence.
        -- right. exists u, q. simpl. auto.
    + apply IH in H; [|intros u Hu; apply HP; right; exact Hu]. destruct H as (Hb & Hn & Ht & He).
      split; [rewrite Hb, <- app_assoc; simpl; unfold pick at 2; rewrite Ex; reflexivity|].
      split; [exact Hn|]. split.
      * intros u q [->|Hu] Eu Hq; [unfold Exists in Eu; congruence|]. apply Ht; assumption.
      * intros n E. destruct (He n E) as [E1|(u & q & Hu & Eu & Hq & Hr)]; [left; exact E1|right].
        exists u, q. simpl. auto.
Qed.

Lemma combine_ok h rs n0 : forall ts num b,
  (forall t, In t ts -> Exists t -> exists p x, part_of_type (t_type t) = Some p /\ fst (rs p) = Some n0 /\
     entry V (part_tensors h p) (t_name t) (snd (rs p)) = Ok x) ->
  num = None \/ num = Some n0 ->
  exists num', combine_entries V h rs ts num b = Ok (num', b ++ map (pick h rs) ts) /\
    (num = Some n0 \/ (exists t, In t ts /\ Exists t) -> num' = Some n0) /\
    (num = None -> (forall t, In t ts -> ~ Exists t) -> num' = None).
Proof.
  induction ts as [|t ts IH]; intros num b HG HN; simpl.
  - exists num. rewrite app_nil_r. split; [reflexivity|]. split; [|auto]. intros [H|(t & [] & _)]; exact H.
  - assert (HG' : forall u, In u ts -> Exists u -> exists p x, part_of_type (t_type u) = Some p /\ fst (rs p) = Some n0 /\
              entry V (part_tensors h p) (t_name u) (snd (rs p)) = Ok x) by (intros u Hu; apply HG; right; exact Hu).
    destruct (truthy (t_exists t)) eqn:Ex.
    + destruct (HG t (or_introl eq_refl) Ex) as (p & x & Hp & Hn & Hx). rewrite Hp, Hn, Hx.
      assert (C : check_num num (Some n0) = Ok (Some n0)) by (destruct HN as [-> | ->]; simpl; [|rewrite Nat.eqb_refl]; reflexivity).
      rewrite C. simpl. destruct (IH (Some n0) (b ++ [x]) HG' (or_intror eq_refl)) as (num' & E & H1 & _).
      exists num'. rewrite E. split.
      { f_equal. f_equal. rewrite <- app_assoc. simpl. f_equal. f_equal. unfold pick. rewrite Ex, Hp, Hx. reflexivity. }
      split; [auto|]. intros _ H. exfalso. apply (H t); [left; reflexivity|exact Ex].
    + destruct (IH num (b ++ [None]) HG' HN) as (num' & E & H1 & H2). exists num'. rewrite E. split.
      { f_equal. f_equal. rewrite <- app_assoc. simpl. f_equal. f_equal. unfold pick. rewrite Ex. reflexivity. }
      split.
      * intros [H|(u & [->|Hu] & Eu)]; [auto|unfold Exists in Eu; congruence|]. apply H1. right. eauto.
      * intros Hnum H. apply H2; [exact Hnum|]. intros u Hu. apply H. right. exact Hu.
Qed.

Lemma combine_disagree h rs : forall ts num b,
  (forall t, In t ts -> Exists t -> exists p n x, part_of_type (t_type t) = Some p /\ fst (rs p) = Some n /\
     entry V (part_tensors h p) (t_name t) (snd (rs p)) = Ok x) ->
  (exists n t p m, num = Some n /\ In t ts /\ Exists t /\ part_of_type (t_type t) = Some p /\ fst (rs p) = Some m /\ n <> m) \/
  (num = None /\ exists t p u q n m, In t ts /\ Exists t /\ part_of_type (t_type t) = Some p /\ fst (rs p) = Some n /\
     In u ts /\ Exists u /\ part_of_type (t_type u) = Some q /\ fst (rs q) = Some m /\ n <> m) ->
  combine_entries V h rs ts num b = Err ValueError.
Proof.
  induction ts as [|t ts IH]; intros num b HG HN; simpl.
  - exfalso. destruct HN as [(n & t & p & m & _ & [] & _)|(_ & t & p & u & q & n & m & [] & _)].
  - assert (HG' : forall u, In u ts -> Exists u -> exists p n x, part_of_type (t_type u) = Some p /\ fst (rs p) = Some n /\
              entry V (part_tensors h p) (t_name u) (snd (rs p)) = Ok x) by (intros u Hu; apply HG; right; exact Hu).
    destruct (truthy (t_exists t)) eqn:Ex.
    + destruct (HG t (or_introl eq_refl) Ex) as (p & n1 & x & Hp & Hn & Hx). rewrite Hp, Hn, Hx.
      destruct HN as [(n & u & q & m & -> & Hu & Eu & Hq & Hm & Hne)|(-> & u & q & v & r & n & m & Hu & Eu & Hq & Hqn & Hv & Ev & Hr & Hrm & Hne)].
      * cbn [check_num]. destruct (Nat.eqb n n1) eqn:E; [|reflexivity]. apply Nat.eqb_eq in E. subst n1. simpl. apply IH; [exact HG'|].
        left. destruct Hu as [->|Hu]; [exfalso; congruence|]. exists n, u, q, m. auto 8.
      * cbn [check_num bind]. apply IH; [exact HG'|]. left. exists n1.
        destruct (Nat.eq_dec n1 n) as [->|N].
        -- destruct Hv as [->|Hv]; [exfalso; congruence|]. exists v, r, m. auto 8.
        -- destruct Hu as [->|Hu]; [exfalso; congruence|]. exists u, q, n. auto 8.
    + apply IH; [exact HG'|].
      destruct HN as [(n & u & q & m & -> & Hu & Eu & Hq & Hm & Hne)|(-> & u & q & v & r & n & m & Hu & Eu & Hq & Hqn & Hv & Ev & Hr & Hrm & Hne)].
      * left. destruct Hu as [->|Hu]; [unfold Exists in Eu; congruence|]. exists n, u, q, m. auto 8.
      * right. split; [reflexivity|]. destruct Hu as [->|Hu]; [unfold Exists in Eu; congruence|].
        destruct Hv as [->|Hv]; [unfold Exists in Ev; congruence|]. exists u, q, v, r, n, m. auto 12.
Qed.

(** The combined data is that of [pick]. *)
Lemma pick_combined h rs : Consistent h -> Typed h ->
  (forall t p, In t (tl_list (h_tensors h)) -> Exists t -> part_of_type (t_type t) = Some p ->
     entry V (part_tensors h p) (t_name t) (snd (rs p)) = Ok (pick h rs t)) ->
  Combined V h rs (map (pick h rs) (tl_list (h_tensors h))).
Proof.
  intros HC HT HE. split; [apply map_length|]. intros i t Ht. rewrite nth_error_map, Ht. simpl.
  pose proof (nth_error_In _ _ Ht) as Hin. split.
  - intros N. unfold pick. unfold Exists in N. destruct (truthy _); [congruence|reflexivity].
  - intros Ex p j Hj. pose proof (part_unique h p t HT (nth_error_In _ _ Hj)) as Hp.
    specialize (HE t p Hin Ex Hp). unfold entry in HE. rewrite (built_index _ _ _ (proj1 HC p) Hj) in HE. simpl in HE.
    destruct (snd (rs p)) as [l|]; [|discriminate]. destruct (nth_error l j) as [x|] eqn:El; [|discriminate].
    exists l, x. split; [reflexivity|]. split; [exact El|]. congruence.
Qed.

Lemma answers_entry h rs t p : Consistent h -> Typed h -> Answers V h rs ->
  In t (tl_list (part_tensors h p)) -> Exists t ->
  exists n x, fst (rs p) = Some n /\ entry V (part_tensors h p) (t_name t) (snd (rs p)) = Ok x.
Proof.
  intros HC HT HA Hin Ex. destruct (HA p (ex_intro _ t (conj Hin Ex))) as (n & l & E & Hl). rewrite E.
  apply In_nth_error in Hin. destruct Hin as (j & Hj). exists n. unfold entry. simpl.
  rewrite (built_index _ _ _ (proj1 HC p) Hj). simpl.
  destruct (nth_error l j) as [x|] eqn:El; [eauto|]. apply nth_error_None in El.
  assert (j < length (tl_list (part_tensors h p))) by (apply nth_error_Some; congruence). lia.
Qed.

(** ** Kinds *)

Lemma kind_of_iff h t k : Consistent h -> kind_of (h_tensors h) t = Ok k <-> KindOf h t k.
Proof.
  intros HC. unfold kind_of, KindOf. destruct HC as (_ & HB & _). split.
  - destruct (t_vector_info t) as [| | | | | |d] eqn:E; try discriminate.
    { intros H; inversion H; subst. reflexivity. }
    destruct (dget "type" d) as [[| | |s| | |]|] eqn:Ed; try discriminate.
    intros H.
    destruct (String.eqb s "value") eqn:Es1; [apply String.eqb_eq in Es1; subst s|].
    { inversion H; subst. eauto. }
    destruct (String.eqb s "index") eqn:Es2; [apply String.eqb_eq in Es2; subst s|].
    2:{ exfalso. apply String.eqb_neq in Es1, Es2. revert H Es1 Es2.
        repeat (match goal with |- context [match ?x with _ => _ end] => destruct x end; try discriminate; try congruence). }
    destruct (dget "reference" d) as [[| | |r| | |]|] eqn:Er; try discriminate.
    apply bind_ok in H. destruct H as (i & Hi & H). inversion H; subst.
    apply built_index_inv in Hi; [|exact HB]. destruct Hi as (u & Hu & Hn). exists d, r, u. auto.
  - destruct k as [| |i].
    + intros ->. reflexivity.
    + intros (d & -> & ->). reflexivity.
    + intros (d & r & u & -> & -> & -> & Hu & <-). rewrite (built_index _ _ _ HB Hu). reflexivity.
Qed.

Lemma kinds_of_iff h ts ks : Consistent h -> kinds_of (h_tensors h) ts = Ok ks <-> Forall2 (KindOf h) ts ks.
Proof.
  intros HC. revert ks. induction ts as [|t ts IH]; intros ks; simpl; split; intros H.
  - inversion H; constructor.
  - inversion H; reflexivity.
  - apply bind_ok in H. destruct H as (k & Hk & H). apply bind_ok in H. destruct H as (ks' & Hks & H).
    inversion H; subst. constructor; [apply kind_of_iff|apply IH]; assumption.
  - inversion H as [|? k ? ks' Hk Hks]; subst. apply kind_of_iff in Hk; [|exact HC]. apply IH in Hks. rewrite Hk, Hks. reflexivity.
Qed.

Lemma kinds_of_length tl : forall ts ks, kinds_of tl ts = Ok ks -> length ks = length ts.
Proof.
  induction ts as [|t ts IH]; intros ks H; simpl in H.
  - inversion H; reflexivity.
  - apply bind_ok in H. destruct H as (k & _ & H). apply bind_ok in H. destruct H as (ks' & H1 & H). inversion H; subst.
    simpl. f_equal. apply IH. exact H1.
Qed.

(** ** Structure *)

Lemma dims_match_iff s : forall dims, length s = length dims ->
  dims_match s dims = true <-> Fits s dims.
Proof.
  unfold Fits. induction s as [|x s IH]; intros [|y dims] HL; try discriminate HL.
  - simpl. split; [|reflexivity]. intros _. split; [reflexivity|]. intros [|k]; discriminate.
  - simpl in HL. injection HL as HL. specialize (IH dims HL).
    assert (E : dims_match (x :: s) (y :: dims) = true <-> (y <> VNone -> veqb (VInt x) y = true) /\ dims_match s dims = true).
    { cbn [dims_match]. destruct y; rewrite ?andb_true_iff; split; intros H; try (destruct H; split; auto); try tauto; auto.
      all: try (apply H; discriminate).
      all: try congruence. }
    rewrite E, IH. split.
    + intros (H1 & _ & H2). split; [simpl; congruence|]. intros [|k] a v Ha Hv Hne; simpl in Ha, Hv.
      * inversion Ha; inversion Hv; subst. auto.
      * eapply H2; eauto.
    + intros (_ & H). split; [intros N; apply (H 0 x y); auto|]. split; [exact HL|]. intros k a v Ha Hv. apply (H (S k)); assumption.
Qed.

Definition OneShaped (t : tensor) (x : option (tdata V)) : Prop :=
  Exists t -> t_vector_info t = VNone ->
  exists d s dims, x = Some d /\ np_shape d = Some s /\ as_seq (t_shape t) = Some dims /\ Fits s dims.

Lemma check_one_iff t x : check_one V np_shape t x = Ok tt <-> OneShaped t x.
Proof.
  unfold check_one, OneShaped, Exists. destruct (truthy (t_exists t)); simpl.
  2:{ split; [intros _ H; discriminate|reflexivity]. }
  assert (E : (match t_vector_info t with VNone => true | _ => false end) = true <-> t_vector_info t = VNone)
    by (destruct (t_vector_info t); split; congruence).
  destruct (match t_vector_info t with VNone => true | _ => false end).
  2:{ split; [|reflexivity]. intros _ _ H. apply E in H. discriminate. }
  destruct x as [d|].
  2:{ split; [discriminate|]. intros H. destruct (H eq_refl (proj1 E eq_refl)) as (d & ? & ? & H' & _). discriminate. }
  destruct (np_shape d) as [s|] eqn:Es.
  2:{ split; [discriminate|]. intros H. destruct (H eq_refl (proj1 E eq_refl)) as (d' & s' & ? & H' & Hs & _). congruence. }
  destruct (as_seq (t_shape t)) as [dims|] eqn:Ed.
  2:{ split; [discriminate|]. intros H. destruct (H eq_refl (proj1 E eq_refl)) as (d' & s' & ? & H' & Hs & Hd & _). congruence. }
  destruct (Nat.eqb (length s) (length dims)) eqn:El; simpl.
  - apply Nat.eqb_eq in El. destruct (dims_match s dims) eqn:Em.
    + apply dims_match_iff in Em; [|exact El]. split; [|reflexivity]. intros _ _ _. exists d, s, dims. auto.
    + split; [discriminate|]. intros H. exfalso. destruct (H eq_refl (proj1 E eq_refl)) as (d' & s' & dims' & H' & Hs & Hd & HF).
      inversion H'; subst d'. rewrite Es in Hs. inversion Hs; subst s'. inversion Hd; subst dims'.
      apply dims_match_iff in HF; [congruence|exact El].
  - apply Nat.eqb_neq in El. split; [discriminate|]. intros H. exfalso.
    destruct (H eq_refl (proj1 E eq_refl)) as (d' & s' & dims' & H' & Hs & Hd & (HF & _)).
    inversion H'; subst d'. rewrite Es in Hs. inversion Hs; subst s'. inversion Hd; subst dims'. congruence.
Qed.

Lemma check_all_iff : forall ts b, length b = length ts ->
  check_all V np_shape ts b = Ok tt <-> forall i t x, nth_error ts i = Some t -> nth_error b i = Some x -> OneShaped t x.
Proof.
  induction ts as [|t ts IH]; intros [|x b] HL; try discriminate HL; simpl.
  - split; [intros _ [|i]; discriminate|reflexivity].
  - simpl in HL. injection HL as HL. specialize (IH b HL). split.
    + intros H. apply bind_ok in H. destruct H as ([] & H1 & H2). apply check_one_iff in H1.
      intros [|i] u y Hu Hy; simpl in Hu, Hy; [inversion Hu; inversion Hy; subst; exact H1|]. eapply IH; eauto.
    + intros H. assert (H1 : OneShaped t x) by (apply (H 0); reflexivity). apply check_one_iff in H1. rewrite H1. simpl.
      apply IH. intros i u y Hu Hy. apply (H (S i)); assumption.
Qed.

Lemma check_structure_iff h b : check_data_structure V np_shape h b false = Ok tt <-> WellShaped V np_shape h b.
Proof.
  unfold check_data_structure, WellShaped. destruct (Nat.eqb (length b) (length (tl_list (h_tensors h)))) eqn:El; simpl.
  - apply Nat.eqb_eq in El. rewrite (check_all_iff _ _ El). split.
    + intros H. split; [exact El|]. intros i t Ht Ex Hv.
      assert (i < length b) by (rewrite El; apply nth_error_Some; congruence).
      destruct (nth_error b i) as [x|] eqn:Ex'; [|apply nth_error_None in Ex'; lia].
      destruct (H i t x Ht Ex' Ex Hv) as (d & s & dims & -> & H2 & H3 & H4). exists d, s, dims. auto.
    + intros (_ & H) i t x Ht Hx Ex Hv. destruct (H i t Ht Ex Hv) as (d & s & dims & H1 & H2 & H3 & H4).
      exists d, s, dims. split; [congruence|auto].
  - apply Nat.eqb_neq in El. split; [discriminate|]. intros (H & _). contradiction.
Qed.

Lemma frame_items_ok : forall ts b k, k + length ts <= length b ->
  exists items, frame_items V ts b k = Ok items /\ length items = length ts /\
    forall i t, nth_error ts i = Some t ->
      (Exists t -> exists x, nth_error b (k + i) = Some x /\ nth_error items i = Some (IData V x)) /\
      (~ Exists t -> nth_error items i = Some (IZero V (t_dtype t))).
Proof.
  induction ts as [|t ts IH]; intros b k HL; simpl.
  - exists []. split; [reflexivity|]. split; [reflexivity|]. intros [|i]; discriminate.
  - simpl in HL. destruct (IH b (S k)) as (items & E & HLi & HI); [lia|].
    destruct (nth_error b k) as [x|] eqn:Ek; [|apply nth_error_None in Ek; lia].
    destruct (truthy (t_exists t)) eqn:Ex; rewrite ?E; simpl.
    + eexists. split; [reflexivity|]. split; [simpl; congruence|]. intros [|i] u Hu; simpl in Hu.
      * inversion Hu; subst u. rewrite Nat.add_0_r. split; [|intros N; unfold Exists in N; congruence]. intros _. exists x. auto.
      * specialize (HI i u Hu). replace (S k + i) with (k + S i) in HI by lia. exact HI.
    + eexists. split; [reflexivity|]. split; [simpl; congruence|]. intros [|i] u Hu; simpl in Hu.
      * inversion Hu; subst u. split; [intros N; unfold Exists in N; congruence|reflexivity].
      * specialize (HI i u Hu). replace (S k + i) with (k + S i) in HI by lia. exact HI.
Qed.

Lemma convert_none : forall ts k, (exists t, In t ts /\ Exists t) -> convert_items V ts None k = Err TypeError.
Proof.
  induction ts as [|t ts IH]; intros k (u & Hu & Eu); [destruct Hu|]. simpl.
  destruct (truthy (t_exists t)) eqn:Ex; simpl; [reflexivity|].
  rewrite IH; [reflexivity|]. destruct Hu as [->|Hu]; [unfold Exists in Eu; congruence|eauto].
Qed.

Lemma convert_ok items : forall ts k,
  (forall i t, nth_error ts i = Some t ->
     (Exists t -> exists d, nth_error items (k + i) = Some (IData V (Some d))) /\
     (~ Exists t -> nth_error items (k + i) = Some (IZero V (t_dtype t)))) ->
  convert_items V ts (Some items) k = Ok (firstn (length ts) (skipn k items)).
Proof.
  induction ts as [|t ts IH]; intros k H; [reflexivity|]. cbn [convert_items].
  destruct (H 0 t eq_refl) as (H1 & H2). rewrite Nat.add_0_r in *.
  assert (R : convert_items V ts (Some items) (S k) = Ok (firstn (length ts) (skipn (S k) items))).
  { apply IH. intros i u Hu. specialize (H (S i) u Hu). replace (S k + i) with (k + S i) by lia. exact H. }
  rewrite R.
  assert (HS : forall x, nth_error items k = Some x -> skipn k items = x :: skipn (S k) items).
  { clear. revert items. induction k as [|k IH]; intros [|y l] x Hx; simpl in Hx; try discriminate.
    - inversion Hx; reflexivity.
    - exact (IH l x Hx). }
  unfold Exists in *. destruct (truthy (t_exists t)).
  - destruct (H1 eq_refl) as (d & Hd). rewrite Hd. cbn [bind]. rewrite (HS _ Hd). reflexivity.
  - assert (Hz : nth_error items k = Some (IZero V (t_dtype t))) by (apply H2; discriminate). cbn [bind].
    rewrite (HS _ Hz). reflexivity.
Qed.

End Read.

(** ** Writing *)

Lemma entries_of_type_ok {A} ty : forall ts (data : list A) k, k + length ts <= length data ->
  entries_of_type ty ts data k =
  Ok (map snd (filter (fun p => String.eqb (t_type (fst p)) ty) (combine ts (skipn k data)))).
Proof.
  induction ts as [|t ts IH]; intros data k HL; [reflexivity|]. simpl in HL. cbn [entries_of_type].
  assert (HS : exists x, nth_error data k = Some x /\ skipn k data = x :: skipn (S k) data).
  { clear -HL. assert (HL' : k < length data) by lia. clear HL. revert data HL'. induction k as [|k IH]; intros [|y l] H; simpl in H; try lia.
    - exists y. auto.
    - destruct (IH l) as (x & H1 & H2); [lia|]. exists x. auto. }
  destruct HS as (x & Hx & HS). rewrite Hx, HS, IH by lia. cbn [combine filter fst].
  destruct (String.eqb (t_type t) ty); reflexivity.
Qed.

Lemma filter_combine_fst {A B} (f : A -> bool) : forall (l : list A) (m : list B), length l = length m ->
  map fst (filter (fun p => f (fst p)) (combine l m)) = filter f l.
Proof.
  induction l as [|x l IH]; intros [|y m] H; try discriminate H; [reflexivity|]. simpl in *.
  injection H as H. destruct (f x); simpl; rewrite IH; auto.
Qed.
