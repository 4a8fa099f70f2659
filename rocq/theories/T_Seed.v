(** Properties C54 and C55: seeds and filter. *)
From Coq Require Import Reals Lra Lia.
From Verif Require Import Py PyFacts RList M_Seed S_Seed.
Open Scope R_scope.

(** ** C54: seeds *)

(** With two or more seeds every file is skipped, whatever it holds. *)
Theorem C54_several : forall c a b rest file,
  get_data_from_hdf c (a :: b :: rest) file = Ok None.
Proof.
  intros c a b rest file. unfold get_data_from_hdf. cbn [hdf_loop negb].
  destruct (dget a file) as [t|]; [|reflexivity].
  destruct (hdf_params c t (ls_params c) []); reflexivity.
Qed.

(** Without seeds the loader always raises, for files and frames. *)
Theorem C54_none : forall c file frame,
  get_data_from_hdf c [] file = Err UnboundLocalError /\
  get_data_from_frame c [] frame = Err UnboundLocalError.
Proof. intros. split; reflexivity. Qed.

Lemma hdf_params_ok c t N :
  (forall l col, dget l t = Some col -> length col = N) ->
  forall names acc,
  acc <> [] -> (forall x, In x acc -> length x = N) ->
  (forall l, In l names -> dget l t <> None \/ fill c l <> None) ->
  exists cols, hdf_params c t names acc = Ok (acc ++ cols) /\
    Forall2 (fun l col => length col = N /\
      (dget l t = Some col \/ (dget l t = None /\ exists v, fill c l = Some v /\ col = repeat v N)))
      names cols.
Proof.
  intros Hlen names. induction names as [|l names IH]; intros acc Hne Hacc Hav.
  - exists []. rewrite app_nil_r. split; [reflexivity|constructor].
  - cbn [hdf_params].
    assert (Hn : forall l0, In l0 names -> dget l0 t <> None \/ fill c l0 <> None)
      by (intros l0 Hl0; apply Hav; right; exact Hl0).
    destruct (dget l t) as [col|] eqn:E.
    + destruct (IH (acc ++ [col])) as [cols [H1 H2]].
      * destruct acc; discriminate.
      * intros x Hx. apply in_app_or in Hx. destruct Hx as [Hx|[<-|[]]];
          [apply Hacc, Hx|exact (Hlen _ _ E)].
      * exact Hn.
      * exists (col :: cols). rewrite H1, <- app_assoc. split; [reflexivity|].
        constructor; [split; [exact (Hlen _ _ E)|left; exact E]|exact H2].
    + destruct (fill c l) as [v|] eqn:F.
      2: { destruct (Hav l (or_introl eq_refl)) as [H|H]; contradiction. }
      destruct (rev acc) as [|p r] eqn:Er.
      { exfalso. apply Hne. rewrite <- (rev_involutive acc), Er. reflexivity. }
      assert (Hp : length p = N) by (apply Hacc, in_rev; rewrite Er; left; reflexivity).
      destruct (IH (acc ++ [repeat v (length p)])) as [cols [H1 H2]].
      * destruct acc; discriminate.
      * intros x Hx. apply in_app_or in Hx. destruct Hx as [Hx|[<-|[]]];
          [apply Hacc, Hx|rewrite repeat_length; exact Hp].
      * exact Hn.
      * exists (repeat v (length p) :: cols). rewrite H1, <- app_assoc. split; [reflexivity|].
        constructor; [|exact H2]. split; [rewrite repeat_length; exact Hp|].
        right. split; [exact E|]. exists v. split; [exact F|rewrite Hp; reflexivity].
Qed.

Lemma nth_error_repeat_lt {A} (v : A) n k : (k < n)%nat -> nth_error (repeat v n) k = Some v.
Proof.
  revert k. induction n; intros k H; [lia|]. destruct k; [reflexivity|].
  simpl. apply IHn. lia.
Qed.

Lemma transpose_length cols : length (transpose cols) = length (hd [] cols).
Proof. unfold transpose. rewrite map_length, seq_length. reflexivity. Qed.

Lemma transpose_row cols k : (k < length (hd [] cols))%nat ->
  nth_error (transpose cols) k = Some (map (fun c => nth k c 0) cols).
Proof.
  intro H. unfold transpose. rewrite nth_error_map.
  rewrite (nth_error_nth' _ 0%nat) by (rewrite seq_length; exact H).
  rewrite seq_nth by exact H. reflexivity.
Qed.

(** With one seed: one row per event with the requested parameters in the
    requested order, if the first one is in the table and the others are or have
    a fill value. *)
Theorem C54_single : forall c n (file : dict table) (t : table) N first others,
  ls_params c = first :: others ->
  dget n file = Some t ->
  (forall l col, dget l t = Some col -> length col = N) ->
  In first (map fst t) ->
  (forall l, In l others -> ~ Unavailable (map fst t) (ls_missing_dict c) (ls_missing c) l) ->
  exists rows, get_data_from_hdf c [n] file = Ok (Some (N, [rows])) /\ length rows = N /\
    forall k, (k < N)%nat -> exists row, nth_error rows k = Some row /\
      Forall2 (SeedValue t (ls_missing_dict c) (ls_missing c) k) (first :: others) row.
Proof.
  intros c n file t N first others Hp Hn Hlen Hf Hav.
  assert (Hfirst : exists col, dget first t = Some col).
  { destruct (dget first t) as [col|] eqn:E; [eauto|]. exfalso.
    apply dget_None_iff in E. apply E. exact Hf. }
  destruct Hfirst as [col Ef].
  destruct (hdf_params_ok c t N Hlen others [col]) as [cols [H1 H2]].
  { discriminate. }
  { intros x [<-|[]]. exact (Hlen _ _ Ef). }
  { intros l Hl. destruct (dget l t) as [x|] eqn:E; [left; discriminate|right].
    unfold fill. destruct (dget l (ls_missing_dict c)) as [v|] eqn:E2; [discriminate|].
    intro E3. apply (Hav l Hl). split; [|split; [|exact E3]].
    - apply dget_None_iff in E. exact E.
    - apply dget_None_iff in E2. exact E2. }
  assert (Hparams : hdf_params c t (first :: others) [] = Ok (col :: cols)).
  { cbn [hdf_params]. rewrite Ef. exact H1. }
  assert (Hhd : length (hd [] (col :: cols)) = N) by exact (Hlen _ _ Ef).
  exists (transpose (col :: cols)). split; [|split].
  - unfold get_data_from_hdf. cbn [hdf_loop negb]. rewrite Hn, Hp, Hparams. cbn [hdf_loop].
    unfold checked. cbn [rev app forallb]. rewrite Nat.eqb_refl. cbn [andb].
    rewrite transpose_length, Hhd. reflexivity.
  - rewrite transpose_length. exact Hhd.
  - intros k Hk. exists (map (fun c0 => nth k c0 0) (col :: cols)). split.
    + apply transpose_row. rewrite Hhd. exact Hk.
    + cbn [map]. constructor.
      * apply SeedColumn with col; [exact Ef|]. apply nth_error_nth'.
        rewrite (Hlen _ _ Ef). exact Hk.
      * clear Hparams H1 Hp Hav Hhd. induction H2 as [|l x ls xs [HL H] H2 IH]; [constructor|].
        cbn [map]. constructor; [|exact IH].
        destruct H as [H|[H [v [Hv ->]]]].
        -- apply SeedColumn with x; [exact H|]. apply nth_error_nth'. rewrite HL. exact Hk.
        -- assert (E : nth k (repeat v N) 0 = v).
           { apply nth_error_nth. apply nth_error_repeat_lt, Hk. }
           rewrite E. unfold fill in Hv.
           destruct (dget l (ls_missing_dict c)) as [w|] eqn:Ew.
           ++ injection Hv as ->. apply SeedSpecial; assumption.
           ++ apply SeedGeneral; assumption.
Qed.

Lemma hdf_params_err c t : forall names acc l,
  In l names -> dget l t = None -> fill c l = None ->
  exists e, hdf_params c t names acc = Err e.
Proof.
  induction names as [|m names IH]; intros acc l Hin E F; [contradiction|].
  cbn [hdf_params]. destruct Hin as [->|Hin].
  - rewrite E, F. eauto.
  - destruct (dget m t); [eapply IH; eassumption|]. destruct (fill c m); [|eauto].
    destruct (rev acc); [eauto|eapply IH; eassumption].
Qed.

(** In all other cases the file is skipped: the table is missing, the first
    parameter is missing (even if it has a fill value) or another one is missing
    without fill value. *)
Theorem C54_skipped : forall c n (file : dict table),
  dget n file = None \/
  (exists (t : table) first others, dget n file = Some t /\ ls_params c = first :: others /\
     ~ In first (map fst t)) \/
  (exists (t : table) l, dget n file = Some t /\ In l (ls_params c) /\
     Unavailable (map fst t) (ls_missing_dict c) (ls_missing c) l) ->
  get_data_from_hdf c [n] file = Ok None.
Proof.
  intros c n file H. unfold get_data_from_hdf. cbn [hdf_loop negb].
  destruct H as [H|[(t & first & others & H & Hp & Hf)|(t & l & H & Hl & H1 & H2 & H3)]];
    rewrite H; [reflexivity| |].
  - rewrite Hp. cbn [hdf_params].
    assert (E : dget first t = None) by (apply dget_None_iff; exact Hf).
    rewrite E. destruct (fill c first); reflexivity.
  - assert (E : dget l t = None) by (apply dget_None_iff; exact H1).
    assert (F : fill c l = None).
    { unfold fill. assert (E2 : dget l (ls_missing_dict c) = None)
        by (apply dget_None_iff; exact H2). rewrite E2. exact H3. }
    destruct (hdf_params_err c t (ls_params c) [] l Hl E F) as [e He]. rewrite He. reflexivity.
Qed.

(** Frames: any number of seeds which are maps, one event each, every missing
    parameter filled, the first one included. *)
Theorem C54_frame : forall c seeds frame,
  seeds <> [] -> ls_params c <> [] ->
  (forall n, In n seeds -> exists d, dget n frame = Some (Labels d) /\
     forall l, In l (ls_params c) -> ~ Unavailable (map fst d) (ls_missing_dict c) (ls_missing c) l) ->
  exists arrays, get_data_from_frame c seeds frame = Ok (Some (1%nat, arrays)) /\
    Forall2 (fun n a => exists d row, dget n frame = Some (Labels d) /\ a = [row] /\
      Forall2 (SeedValue (map (fun e => (fst e, [snd e])) d) (ls_missing_dict c) (ls_missing c) 0)
        (ls_params c) row) seeds arrays.
Proof.
  intros c seeds frame Hne Hpne H.
  assert (Hd : forall d l, dget l (map (fun e : string * R => (fst e, [snd e])) d)
             = match dget l d with Some v => Some [v] | None => None end).
  { induction d as [|[k v] d IH]; intro l; [reflexivity|]. cbn [map dget fst snd].
    destruct (String.eqb l k); [reflexivity|apply IH]. }
  assert (Hp : forall d names,
    (forall l, In l names -> ~ Unavailable (map fst d) (ls_missing_dict c) (ls_missing c) l) ->
    exists row, frame_params c (Labels d) names = Ok (map (fun v => [v]) row) /\
      Forall2 (SeedValue (map (fun e => (fst e, [snd e])) d) (ls_missing_dict c) (ls_missing c) 0)
        names row).
  { induction names as [|l names IH]; intro Hav.
    - exists []. split; [reflexivity|constructor].
    - destruct IH as [row [H1 H2]]. { intros l0 Hl0. apply Hav. right. exact Hl0. }
      assert (Hl := Hav l (or_introl eq_refl)).
      assert (G : exists v, frame_param c (Labels d) l = Ok v /\
        SeedValue (map (fun e => (fst e, [snd e])) d) (ls_missing_dict c) (ls_missing c) 0 l v).
      { cbn [frame_param]. destruct (dget l d) as [v|] eqn:E.
        - exists v. split; [reflexivity|]. apply SeedColumn with [v]; [|reflexivity].
          rewrite Hd, E. reflexivity.
        - unfold fill. destruct (dget l (ls_missing_dict c)) as [v|] eqn:E2.
          + exists v. split; [reflexivity|]. apply SeedSpecial; [rewrite Hd, E; reflexivity|exact E2].
          + destruct (ls_missing c) as [v|] eqn:E3.
            * exists v. split; [reflexivity|]. apply SeedGeneral;
                [rewrite Hd, E; reflexivity|exact E2|reflexivity].
            * exfalso. apply Hl. split; [apply dget_None_iff in E; exact E|].
              split; [apply dget_None_iff in E2; exact E2|reflexivity]. }
      destruct G as [v [G1 G2]]. exists (v :: row). cbn [frame_params]. rewrite G1. cbn [bind].
      rewrite H1. split; [reflexivity|constructor; assumption]. }
  assert (Ht : forall row : list R, row <> [] -> transpose (map (fun v => [v]) row) = [row]).
  { intros row Hr. unfold transpose. destruct row as [|v row]; [contradiction|].
    cbn [map hd length seq]. f_equal. f_equal. rewrite map_map. apply map_id. }
  assert (L : exists arrays, frame_loop c frame seeds = Ok (Some arrays) /\
    Forall2 (fun n a => exists d row, dget n frame = Some (Labels d) /\ a = [row] /\
      Forall2 (SeedValue (map (fun e => (fst e, [snd e])) d) (ls_missing_dict c) (ls_missing c) 0)
        (ls_params c) row) seeds arrays).
  { clear Hne. induction seeds as [|n seeds IH].
    - exists []. split; [reflexivity|constructor].
    - destruct IH as [arrays [H1 H2]]. { intros m Hm. apply H. right. exact Hm. }
      destruct (H n (or_introl eq_refl)) as [d [Hn Hav]].
      destruct (Hp d (ls_params c) Hav) as [row [G1 G2]].
      assert (Hr : row <> []).
      { intro E. subst row. inversion G2 as [E|]. apply Hpne. symmetry. exact E. }
      exists ([row] :: arrays). cbn [frame_loop]. rewrite Hn, G1, H1, Ht by exact Hr.
      split; [reflexivity|]. constructor; [|exact H2]. exists d, row. auto. }
  destruct L as [arrays [H1 H2]]. exists arrays. split; [|exact H2].
  unfold get_data_from_frame. rewrite H1. unfold checked.
  assert (Hl : forall a, In a arrays -> length a = 1%nat).
  { clear - H2. induction H2 as [|n a ns l0 (d & row & _ & -> & _) H2 IH]; [intros ? []|].
    intros a' [<-|Ha]; [reflexivity|apply IH, Ha]. }
  destruct (rev arrays) as [|a r] eqn:Er.
  - exfalso. apply Hne. rewrite <- (rev_involutive arrays), Er in H2. inversion H2. reflexivity.
  - assert (La : length a = 1%nat) by (apply Hl, in_rev; rewrite Er; left; reflexivity).
    rewrite La.
    assert (F : forallb (fun a0 : list (list R) => Nat.eqb (length a0) 1) arrays = true).
    { apply forallb_forall. intros x Hx. rewrite (Hl x Hx). reflexivity. }
    rewrite F. reflexivity.
Qed.

(** A frame of maps in which a seed, or a parameter of a seed without fill value,
    is missing is skipped, not loaded and not an error. *)
Theorem C54_frame_skipped : forall c seeds frame n,
  (forall m obj, In m seeds -> dget m frame = Some obj -> exists d, obj = Labels d) ->
  In n seeds ->
  (dget n frame = None \/
   exists d l, dget n frame = Some (Labels d) /\ In l (ls_params c) /\
     Unavailable (map fst d) (ls_missing_dict c) (ls_missing c) l) ->
  get_data_from_frame c seeds frame = Ok None.
Proof.
  intros c seeds frame n HL Hin Hm.
  assert (P : forall d names, (exists cols, frame_params c (Labels d) names = Ok cols) \/
    frame_params c (Labels d) names = Err KeyError).
  { induction names as [|l names IH]; [left; eexists; reflexivity|]. cbn [frame_params frame_param].
    destruct (dget l d) as [v|]; cbn [bind].
    - destruct IH as [(cols & ->)| ->]; [left; eexists; reflexivity|right; reflexivity].
    - destruct (fill c l) as [v|]; cbn [bind]; [|right; reflexivity].
      destruct IH as [(cols & ->)| ->]; [left; eexists; reflexivity|right; reflexivity]. }
  assert (Q : forall d l names, In l names ->
    Unavailable (map fst d) (ls_missing_dict c) (ls_missing c) l ->
    frame_params c (Labels d) names = Err KeyError).
  { intros d l names Hl (U1 & U2 & U3). induction names as [|l' names IH]; [destruct Hl|].
    destruct Hl as [->|Hl].
    - cbn [frame_params frame_param]. rewrite (proj2 (dget_None_iff _ _) U1).
      unfold fill. rewrite (proj2 (dget_None_iff _ _) U2), U3. reflexivity.
    - specialize (IH Hl). destruct (P d [l']) as [(cols & E)|E]; cbn [frame_params] in *.
      + destruct (frame_param c (Labels d) l') as [v|]; [|discriminate]. cbn [bind]. rewrite IH. reflexivity.
      + destruct (frame_param c (Labels d) l') as [v|e]; [discriminate|]. cbn [bind] in *. congruence. }
  assert (G : frame_loop c frame seeds = Ok None).
  { induction seeds as [|m seeds IH]; [destruct Hin|]. cbn [frame_loop].
    destruct (dget m frame) as [obj|] eqn:Em; [|reflexivity].
    destruct (HL m obj (or_introl eq_refl) Em) as [d ->].
    destruct Hin as [->|Hin].
    - destruct Hm as [Hm|(d' & l & Hd & Hl & U)]; [congruence|].
      assert (d' = d) by congruence. subst d'. rewrite (Q d l _ Hl U). reflexivity.
    - destruct (P d (ls_params c)) as [(cols & ->)| ->]; [|reflexivity].
      rewrite IH; [reflexivity| |exact Hin]. intros m' obj Hm'. apply HL. right. exact Hm'. }
  unfold get_data_from_frame. rewrite G. reflexivity.
Qed.

(** A particle: positions and directions are read from the particle's vectors
    unless the particle has the attribute itself; fill values are never used for
    these. *)
Theorem C54_particle : forall c attrs pos dir l,
  (forall v, dget l attrs = Some v -> frame_param c (Particle attrs pos dir) l = Ok v) /\
  (forall v, ~ In l (map fst attrs) -> In l ["x"; "y"; "z"] -> dget l pos = Some v ->
     frame_param c (Particle attrs pos dir) l = Ok v) /\
  (forall v, ~ In l (map fst attrs) -> In l ["zenith"; "azimuth"] -> dget l dir = Some v ->
     frame_param c (Particle attrs pos dir) l = Ok v) /\
  (~ In l (map fst attrs) -> ~ In l ["x"; "y"; "z"; "zenith"; "azimuth"] ->
     frame_param c (Particle attrs pos dir) l =
       match dget l (ls_missing_dict c), ls_missing c with
       | Some v, _ => Ok v
       | None, Some v => Ok v
       | None, None => Err KeyError
       end).
Proof.
  intros c attrs pos dir l. cbn [frame_param].
  assert (A : ~ In l (map fst attrs) -> dmem l attrs = false).
  { intro H. apply dmem_false, dget_None_iff. exact H. }
  split; [|split; [|split]].
  - intros v E. assert (M : dmem l attrs = true) by (unfold dmem; rewrite E; reflexivity).
    rewrite M. unfold getattr. rewrite E. reflexivity.
  - intros v H1 H2 E. rewrite (A H1).
    assert (M : smem l ["x"; "y"; "z"] = true) by (apply smem_In; exact H2).
    rewrite M. unfold getattr. rewrite E. reflexivity.
  - intros v H1 H2 E. rewrite (A H1).
    assert (M : smem l ["x"; "y"; "z"] = false)
      by (destruct H2 as [<-|[<-|[]]]; reflexivity).
    assert (M2 : smem l ["zenith"; "azimuth"] = true) by (apply smem_In; exact H2).
    rewrite M, M2. unfold getattr. rewrite E. reflexivity.
  - intros H1 H2. rewrite (A H1).
    assert (M : smem l ["x"; "y"; "z"] = false).
    { destruct (smem l ["x"; "y"; "z"]) eqn:E; [|reflexivity]. exfalso. apply H2.
      apply smem_In in E. destruct E as [<-|[<-|[<-|[]]]]; simpl; auto. }
    assert (M2 : smem l ["zenith"; "azimuth"] = false).
    { destruct (smem l ["zenith"; "azimuth"]) eqn:E; [|reflexivity]. exfalso. apply H2.
      apply smem_In in E. destruct E as [<-|[<-|[]]]; simpl; auto 6. }
    rewrite M, M2. unfold fill. destruct (dget l (ls_missing_dict c)); [reflexivity|].
    destruct (ls_missing c); reflexivity.
Qed.

(** The same labels: loaded from a frame, skipped in a file *)
Theorem C54_first_refuted : exists c n d row,
  get_data_from_frame c [n] [(n, Labels d)] = Ok (Some (1%nat, [[row]])) /\
  get_data_from_hdf c [n] [(n, map (fun e => (fst e, [snd e])) d)] = Ok None.
Proof.
  exists (mk_lsettings ["a"; "b"]%string (Some 0) []), "s"%string, [("b"%string, 1)], [0; 1].
  split; reflexivity.
Qed.

(** ** C55: filter *)

Lemma compare_known op v t : Known op ->
  exists b, compare op v t = Ok b /\ (b = true <-> Holds op v t).
Proof.
  intro K. unfold Known in K.
  destruct K as [<-|[<-|[<-|[<-|[<-|[]]]]]]; unfold compare;
    repeat (match goal with |- context [String.eqb ?a ?b] =>
      let e := eval compute in (String.eqb a b) in change (String.eqb a b) with e end; cbv iota);
    eexists; (split; [reflexivity|]).
  - rewrite Rltb_true. split; [intro; constructor; lra|intro H; inversion H; subst; lra].
  - rewrite Rleb_true. split; [intro; constructor; lra|intro H; inversion H; subst; lra].
  - rewrite Rleb_true. split; [intro; constructor; lra|intro H; inversion H; subst; lra].
  - rewrite Rltb_true. split; [intro; constructor; lra|intro H; inversion H; subst; lra].
  - rewrite Reqb_true. split; [intro; constructor; lra|intro H; inversion H; subst; lra].
Qed.

Lemma compare_unknown op v t : ~ Known op -> compare op v t = Err ValueError.
Proof.
  intro K. unfold compare.
  repeat match goal with |- context [String.eqb op ?s] =>
    destruct (String.eqb_spec op s) as [->|_]; [exfalso; apply K; unfold Known; simpl; tauto|] end.
  reflexivity.
Qed.

Lemma compare_all_known op vs t : Known op ->
  exists m, compare_all op vs t = Ok m /\
    Forall2 (fun v b => b = true <-> Holds op v t) vs m.
Proof.
  intro K. induction vs as [|v vs [m [H1 H2]]].
  - destruct (compare_known op 0 t K) as [b [E _]]. exists []. cbn [compare_all].
    rewrite E. split; [reflexivity|constructor].
  - destruct (compare_known op v t K) as [b [E Hb]]. exists (b :: m). cbn [compare_all].
    rewrite E. cbn [bind]. rewrite H1. split; [reflexivity|constructor; assumption].
Qed.

(** An operation outside of the five always raises. *)
Theorem C55_unknown : forall key col op t rest file n vs,
  hdf_values file key col = Ok vs -> ~ In op [">"; ">="; "<="; "<"; "=="]%string ->
  filter_hdf ((key, col, op, t) :: rest) file n = Err ValueError.
Proof.
  intros key col op t rest file n vs H K. unfold filter_hdf. cbn [hdf_mask]. rewrite H. cbn [bind].
  assert (E : compare_all op vs t = Err ValueError).
  { destruct vs as [|v vs]; cbn [compare_all];
      match goal with |- context [compare op ?x t] => rewrite (compare_unknown op x t K) end;
      reflexivity. }
  rewrite E. reflexivity.
Qed.

(** The value of an event in a file of [n] events *)
Inductive Entry (file : dict ftable) (n k : nat) (key : string) : column -> R -> Prop :=
| EntryColumn : forall s d vs v,
    dget key file = Some (FColumns d) -> dget s d = Some vs -> length vs = n ->
    nth_error vs k = Some v -> Entry file n k key (Name s) v
| EntryVector : forall i vectors vector v,
    dget key file = Some (FVector (vector_rows vectors)) -> length vectors = n ->
    Forall (fun w => (i < length w)%nat) vectors ->
    nth_error vectors k = Some vector -> nth_error vector i = Some v ->
    Entry file n k key (Index (Z.of_nat i)) v.

Definition Complete (file : dict ftable) (n : nat) (c : constraint) : Prop :=
  match c with (key, col, op, _) =>
    Known op /\
    ((exists s d vs, col = Name s /\ dget key file = Some (FColumns d) /\ dget s d = Some vs /\
        length vs = n) \/
     (exists i vectors, col = Index (Z.of_nat i) /\
        dget key file = Some (FVector (vector_rows vectors)) /\ length vectors = n /\
        Forall (fun w => (i < length w)%nat) vectors))
  end.

Lemma combine_seq_filter (v : list R) : forall a i,
  map snd (filter (fun r => Z.eqb (fst r) (Z.of_nat (a + i)))
    (combine (map Z.of_nat (seq a (length v))) v)) =
  match nth_error v i with Some x => [x] | None => [] end.
Proof.
  induction v as [|x v IH]; intros a i; [destruct i; reflexivity|].
  cbn [length seq map combine filter fst]. destruct i as [|i].
  - rewrite Nat.add_0_r, Z.eqb_refl. cbn [map snd nth_error]. f_equal.
    assert (G : forall b, (a < b)%nat ->
      filter (fun r : Z * R => Z.eqb (fst r) (Z.of_nat a)) (combine (map Z.of_nat (seq b (length v))) v) = []).
    { clear IH. induction v as [|y v IH]; intros b Hb; [reflexivity|].
      cbn [length seq map combine filter fst].
      destruct (Z.eqb_spec (Z.of_nat b) (Z.of_nat a)); [lia|]. apply IH. lia. }
    rewrite G by lia. reflexivity.
  - destruct (Z.eqb_spec (Z.of_nat a) (Z.of_nat (a + Datatypes.S i))); [lia|].
    replace (a + Datatypes.S i)%nat with (Datatypes.S a + i)%nat by lia. rewrite IH. reflexivity.
Qed.

Lemma vector_values vectors i :
  map snd (filter (fun r => Z.eqb (fst r) (Z.of_nat i)) (vector_rows vectors)) =
  flat_map (fun v => match nth_error v i with Some x => [x] | None => [] end) vectors.
Proof.
  unfold vector_rows. induction vectors as [|v vectors IH]; [reflexivity|].
  cbn [flat_map]. rewrite filter_app, map_app, IH. f_equal. apply (combine_seq_filter v 0 i).
Qed.

Lemma complete_values vectors i :
  Forall (fun w => (i < length w)%nat) vectors ->
  Forall2 (fun w x => nth_error w i = Some x) vectors
    (flat_map (fun v : list R => match nth_error v i with Some x => [x] | None => [] end) vectors).
Proof.
  induction 1 as [|w vectors H _ IH]; [constructor|]. cbn [flat_map].
  destruct (nth_error w i) eqn:E; [|apply nth_error_None in E; lia].
  constructor; assumption.
Qed.

Lemma Forall2_len {A B} (P : A -> B -> Prop) l l' : Forall2 P l l' -> length l = length l'.
Proof. induction 1; simpl; congruence. Qed.

Lemma Forall2_nth_error {A B} (P : A -> B -> Prop) l l' :
  Forall2 P l l' -> forall k x, nth_error l k = Some x -> exists y, nth_error l' k = Some y /\ P x y.
Proof.
  induction 1 as [|a b l l' H H2 IH]; intros k x E; [destruct k; discriminate|].
  destruct k; [injection E as <-; exists b; auto|apply IH, E].
Qed.

Lemma Entry_unique file n k key col v w :
  Entry file n k key col v -> Entry file n k key col w -> v = w.
Proof.
  intros H1 H2. destruct H1 as [s d vs v A1 A2 A3 A4|i vectors vector v A1 A2 A3 A4 A5].
  - inversion H2 as [s' d' vs' w' B1 B2 B3 B4|]; subst. congruence.
  - assert (V1 : nth_error (map snd (filter (fun r => Z.eqb (fst r) (Z.of_nat i)) (vector_rows vectors))) k = Some v).
    { rewrite vector_values.
      destruct (Forall2_nth_error _ _ _ (complete_values vectors i A3) k vector A4) as [y [Y1 Y2]].
      congruence. }
    inversion H2 as [|i' vectors' vector' w' B1 B2 B3 B4 B5 Ei]; subst.
    apply Nat2Z.inj in Ei. subst i'.
    assert (V2 : nth_error (map snd (filter (fun r => Z.eqb (fst r) (Z.of_nat i)) (vector_rows vectors'))) k = Some w).
    { rewrite vector_values.
      destruct (Forall2_nth_error _ _ _ (complete_values vectors' i B3) k vector' B4) as [y [Y1 Y2]].
      congruence. }
    rewrite A1 in B1. injection B1 as B1. rewrite B1 in V1. congruence.
Qed.

Lemma complete_hdf_values file n key col op t :
  Complete file n (key, col, op, t) ->
  exists vs, hdf_values file key col = Ok vs /\ length vs = n /\
    forall k v, nth_error vs k = Some v -> Entry file n k key col v.
Proof.
  intros [_ [(s & d & vs & -> & H1 & H2 & H3)|(i & vectors & -> & H1 & H2 & H3)]].
  - exists vs. cbn [hdf_values]. unfold hdf_values. rewrite H1, H2. split; [reflexivity|].
    split; [exact H3|]. intros k v E. apply EntryColumn with d vs; assumption.
  - eexists. unfold hdf_values. rewrite H1. split; [reflexivity|]. rewrite vector_values.
    assert (F := complete_values vectors i H3). split; [rewrite <- (Forall2_len _ _ _ F); exact H2|].
    intros k v E. destruct (nth_error vectors k) as [w|] eqn:Ew.
    + destruct (Forall2_nth_error _ _ _ F k w Ew) as [y [Y1 Y2]].
      apply EntryVector with vectors w; try assumption. congruence.
    + exfalso. apply nth_error_None in Ew. assert (k < length vectors)%nat; [|lia].
      rewrite (Forall2_len _ _ _ F). apply nth_error_Some. congruence.
Qed.

Lemma logical_and_eq a b : length a = length b ->
  logical_and a b = Ok (map (fun x => fst x && snd x) (combine a b)).
Proof. intro H. unfold logical_and. rewrite H, Nat.eqb_refl. reflexivity. Qed.

Lemma and_nth a : forall b k, length a = length b ->
  nth k (map (fun x : bool * bool => fst x && snd x) (combine a b)) false = nth k a false && nth k b false.
Proof.
  induction a as [|x a IH]; intros [|y b] k H; try discriminate; [destruct k; reflexivity|].
  destruct k; [reflexivity|]. cbn [combine map nth]. apply IH. simpl in H. lia.
Qed.

Lemma hdf_mask_step file n key col op t cs mask :
  Complete file n (key, col, op, t) -> length mask = n ->
  exists m, hdf_mask file ((key, col, op, t) :: cs) mask =
      hdf_mask file cs (map (fun x => fst x && snd x) (combine mask m)) /\ length m = n /\
    forall k, (k < n)%nat ->
      (nth k m false = true <-> exists v, Entry file n k key col v /\ Holds op v t).
Proof.
  intros HC L. assert (K : Known op) by (destruct HC; assumption).
  destruct (complete_hdf_values _ _ _ _ _ _ HC) as [vs [H1 [H2 H3]]].
  destruct (compare_all_known op vs t K) as [m [M1 M2]].
  assert (Lm : length m = n) by (rewrite <- (Forall2_len _ _ _ M2); exact H2).
  exists m. split; [|split; [exact Lm|]].
  - cbn [hdf_mask]. rewrite H1. cbn [bind]. rewrite M1. cbn [bind].
    rewrite logical_and_eq by congruence. rewrite L, Lm, Nat.eqb_refl.
    destruct col; reflexivity.
  - intros k Hk. destruct (nth_error vs k) as [v|] eqn:Ev.
    2: { apply nth_error_None in Ev. lia. }
    destruct (Forall2_nth_error _ _ _ M2 k v Ev) as [b [B1 B2]].
    rewrite (nth_error_nth _ _ _ B1). rewrite B2. split.
    + intro Hv. exists v. split; [apply H3, Ev|exact Hv].
    + intros [w [E Hw]]. rewrite (Entry_unique _ _ _ _ _ _ _ (H3 k v Ev) E). exact Hw.
Qed.

(** Files: for known operations and complete tables an event passes iff all
    constraints hold for its values. *)
Theorem C55_hdf : forall cs file n,
  (forall c, In c cs -> Complete file n c) ->
  exists mask, filter_hdf cs file n = Ok mask /\ length mask = n /\
    forall k, (k < n)%nat ->
      (nth k mask false = true <->
       forall key col op t, In (key, col, op, t) cs ->
         exists v, Entry file n k key col v /\ Holds op v t).
Proof.
  intros cs file n HC. unfold filter_hdf.
  assert (G : forall mask, length mask = n ->
    exists out, hdf_mask file cs mask = Ok out /\ length out = n /\
      forall k, (k < n)%nat -> (nth k out false = true <-> nth k mask false = true /\
        forall key col op t, In (key, col, op, t) cs ->
          exists v, Entry file n k key col v /\ Holds op v t)).
  { induction cs as [|[[[key col] op] t] cs IH]; intros mask L.
    - exists mask. split; [reflexivity|]. split; [exact L|]. intros k Hk.
      split; [intro H; split; [exact H|intros ? ? ? ? []]|tauto].
    - destruct (hdf_mask_step file n key col op t cs mask (HC _ (or_introl eq_refl)) L)
        as [m [M1 [M2 M3]]].
      assert (L2 : length (map (fun x : bool * bool => fst x && snd x) (combine mask m)) = n).
      { rewrite map_length, combine_length. lia. }
      destruct (IH (fun c Hc => HC c (or_intror Hc)) _ L2) as [out [O1 [O2 O3]]].
      exists out. split; [exact (eq_trans M1 O1)|]. split; [exact O2|]. intros k Hk.
      rewrite (O3 k Hk), and_nth by congruence. rewrite andb_true_iff, (M3 k Hk). split.
      + intros [[A B] C]. split; [exact A|]. intros key' col' op' t' [E|Hin]; [|apply C, Hin].
        injection E as <- <- <- <-. exact B.
      + intros [A B]. split; [split; [exact A|apply B; left; reflexivity]|].
        intros. apply B. right. assumption. }
  destruct (G (repeat true n) (repeat_length _ _)) as [out [O1 [O2 O3]]].
  exists out. split; [exact O1|]. split; [exact O2|]. intros k Hk. rewrite (O3 k Hk).
  assert (T : nth k (repeat true n) false = true).
  { apply nth_error_nth, nth_error_repeat_lt, Hk. }
  rewrite T. tauto.
Qed.

(** Vectors which do not all reach the index: if exactly one event has the entry,
    that entry decides for all events. *)
Theorem C55_short : forall key i op t file vectors v n,
  Known op -> dget key file = Some (FVector (vector_rows vectors)) ->
  flat_map (fun w => match nth_error w i with Some x => [x] | None => [] end) vectors = [v] ->
  (2 <= n)%nat ->
  exists b, filter_hdf [(key, Index (Z.of_nat i), op, t)] file n = Ok (repeat b n) /\
    (b = true <-> Holds op v t).
Proof.
  intros key i op t file vectors v n K H Hv Hn.
  destruct (compare_known op v t K) as [b [E Hb]]. exists b. split; [|exact Hb].
  unfold filter_hdf. cbn [hdf_mask]. unfold hdf_values. rewrite H. cbn [bind].
  rewrite vector_values, Hv. cbn [compare_all]. destruct (compare_known op 0 t K) as [b0 [E0 _]].
  rewrite E, E0. cbn [bind]. destruct n as [|[|n]]; [lia|lia|].
  cbn [repeat]. unfold logical_and. cbn [length Nat.eqb bind map]. f_equal.
  cbn [andb]. f_equal. f_equal. clear. induction n; [reflexivity|]. cbn [repeat map andb].
  f_equal. exact IHn.
Qed.

(** Frames: the name of a column has no influence. *)
Definition same_constraint (a b : constraint) : Prop :=
  match a, b with (k, x, op, t), (k', y, op', t') =>
    k = k' /\ op = op' /\ t = t' /\
    (x = y \/ exists s s', x = Name s /\ y = Name s')
  end.
Theorem C55_frame_ignores : forall cs cs' frame n,
  Forall2 same_constraint cs cs' -> filter_frame cs frame n = filter_frame cs' frame n.
Proof.
  intros cs cs' frame n H. unfold filter_frame. generalize (repeat true n).
  induction H as [|[[[k x] op] t] [[[k' y] op'] t'] cs cs' (-> & -> & -> & Hxy) H IH];
    intro mask; [reflexivity|]. cbn [frame_mask].
  assert (E : frame_values frame k' x = frame_values frame k' y).
  { destruct Hxy as [->|(s & s' & -> & ->)]; [reflexivity|]. unfold frame_values.
    destruct (dget k' frame) as [[]|]; reflexivity. }
  rewrite E. destruct (frame_values frame k' y); [|reflexivity]. cbn [bind].
  destruct (compare_all op' a t'); [|reflexivity]. cbn [bind].
  destruct (logical_and mask a0); [|reflexivity]. cbn [bind]. apply IH.
Qed.

(** ... and a map without an entry or attribute called like the map raises. *)
Theorem C55_frame_named : forall key s op t rest frame n d attrs,
  dget key frame = Some (OMap d attrs) ->
  ~ In key (map fst d) -> ~ In key (map fst attrs) ->
  filter_frame ((key, Name s, op, t) :: rest) frame n = Err AttributeError.
Proof.
  intros key s op t rest frame n d attrs H H1 H2. unfold filter_frame. cbn [frame_mask].
  unfold frame_values. rewrite H.
  assert (E : dget key d = None) by (apply dget_None_iff; exact H1).
  assert (E2 : dget key attrs = None) by (apply dget_None_iff; exact H2).
  rewrite E. unfold getattr. rewrite E2. reflexivity.
Qed.

(** A vector cannot be asked for by name, anything else not by position. *)
Theorem C55_frame_kinds : forall key col op t rest frame n,
  (forall l s, dget key frame = Some (OVector l) -> col = Name s ->
     filter_frame ((key, col, op, t) :: rest) frame n = Err AttributeError) /\
  (forall d attrs i, dget key frame = Some (OMap d attrs) \/ dget key frame = Some (OObject attrs) ->
     col = Index i -> filter_frame ((key, col, op, t) :: rest) frame n = Err TypeError) /\
  (forall attrs s, dget key frame = Some (OObject attrs) -> col = Name s ->
     filter_frame ((key, col, op, t) :: rest) frame n = Err TypeError) /\
  (dget key frame = None ->
     filter_frame ((key, col, op, t) :: rest) frame n = Err KeyError).
Proof.
  intros key col op t rest frame n. unfold filter_frame. cbn [frame_mask]. unfold frame_values.
  split; [|split; [|split]].
  - intros l s -> ->. reflexivity.
  - intros d attrs i [-> | ->] ->; reflexivity.
  - intros attrs s -> ->. reflexivity.
  - intros ->. reflexivity.
Qed.

(** The same data: accepted from a file, rejected or an error from a frame *)
Theorem C55_refuted : exists key s op t d d',
  filter_hdf [(key, Name s, op, t)] [(key, FColumns (map (fun e => (fst e, [snd e])) d))] 1 = Ok [true] /\
  filter_frame [(key, Name s, op, t)] [(key, OMap d [])] 1 = Ok [false] /\
  filter_hdf [(key, Name s, op, t)] [(key, FColumns (map (fun e => (fst e, [snd e])) d'))] 1 = Ok [true] /\
  filter_frame [(key, Name s, op, t)] [(key, OMap d' [])] 1 = Err AttributeError.
Proof.
  exists "labels"%string, "energy"%string, ">"%string, 1,
    [("energy"%string, 2); ("labels"%string, 0)], [("energy"%string, 2)].
  assert (T : Rltb 1 2 = true) by (apply Rltb_true; lra).
  assert (F : Rltb 1 0 = false) by (apply Rltb_false; lra).
  unfold filter_hdf, filter_frame. cbn.
  split; [|split; [|split]]; cbn; rewrite ?T, ?F; reflexivity.
Qed.

(** Integer columns agree: the event of a frame and of a file with this event *)
Theorem C55_index : forall cs file frame,
  (forall key col op t, In (key, col, op, t) cs -> Known op /\
     exists i v, col = Index (Z.of_nat i) /\ (i < length v)%nat /\
       dget key frame = Some (OVector v) /\ dget key file = Some (FVector (vector_rows [v]))) ->
  filter_frame cs frame 1 = filter_hdf cs file 1.
Proof.
  intros cs file frame H. unfold filter_frame, filter_hdf.
  assert (L : length (repeat true 1) = 1%nat) by reflexivity. revert L.
  generalize (repeat true 1).
  induction cs as [|[[[key col] op] t] cs IH]; intros mask L; [reflexivity|].
  destruct (H key col op t (or_introl eq_refl)) as [K (i & v & -> & Hi & H1 & H2)].
  assert (Ev : nth_error v i = Some (nth i v 0)) by (apply nth_error_nth'; exact Hi).
  cbn [frame_mask hdf_mask]. unfold frame_values, hdf_values. rewrite H1, H2. cbn [bind].
  rewrite vector_values. cbn [flat_map]. rewrite Ev. cbn [app].
  unfold vector_item. destruct (Z.ltb_spec (Z.of_nat i) 0); [lia|].
  destruct (Z.leb_spec 0 (Z.of_nat i)); [|lia].
  destruct (Z.ltb_spec (Z.of_nat i) (Z.of_nat (length v))); [|lia]. cbn [andb bind].
  rewrite Nat2Z.id.
  destruct (compare_all_known op [nth i v 0] t K) as [m [M1 M2]]. rewrite M1. cbn [bind].
  assert (Lm : length m = 1%nat) by (rewrite <- (Forall2_len _ _ _ M2); reflexivity).
  rewrite logical_and_eq by congruence. cbn [bind]. apply IH.
  - intros key' col' op' t' Hin. apply (H key' col' op' t'). right. exact Hin.
  - rewrite map_length, combine_length. lia.
Qed.

(** Negative positions do not: the last item decides in a frame, the mask of a
    file has no entry for the event. *)
Theorem C55_negative : forall key op t (v : list R) x,
  Known op ->
  filter_hdf [(key, Index (-1), op, t)] [(key, FVector (vector_rows [v ++ [x]]))] 1 = Ok [] /\
  exists b, filter_frame [(key, Index (-1), op, t)] [(key, OVector (v ++ [x]))] 1 = Ok [b] /\
    (b = true <-> Holds op x t).
Proof.
  intros key op t v x K. split.
  - unfold filter_hdf. cbn [hdf_mask]. unfold hdf_values. cbn [dget]. rewrite String.eqb_refl.
    cbn [bind].
    assert (G : forall a w, filter (fun r : Z * R => Z.eqb (fst r) (-1))
              (combine (map Z.of_nat (seq a (length w))) w) = []).
    { intros a w. revert a. induction w as [|y w IH]; intro a; [reflexivity|].
      cbn [length seq map combine filter fst]. destruct (Z.eqb_spec (Z.of_nat a) (-1)); [lia|apply IH]. }
    unfold vector_rows. cbn [flat_map]. rewrite app_nil_r, G. cbn [map compare_all].
    destruct (compare_known op 0 t K) as [b [E _]]. rewrite E. reflexivity.
  - destruct (compare_known op x t K) as [b [E Hb]]. exists b. split; [|exact Hb].
    unfold filter_frame. cbn [frame_mask]. unfold frame_values. cbn [dget]. rewrite String.eqb_refl.
    unfold vector_item. rewrite app_length. cbn [length].
    destruct (Z.ltb_spec (-1) 0); [|lia].
    destruct (Z.leb_spec 0 (-1 + Z.of_nat (length v + 1))); [|lia].
    destruct (Z.ltb_spec (-1 + Z.of_nat (length v + 1)) (Z.of_nat (length v + 1))); [|lia].
    cbn [andb bind].
    replace (Z.to_nat (-1 + Z.of_nat (length v + 1))) with (length v) by lia.
    rewrite app_nth2, Nat.sub_diag by lia. cbn [nth compare_all].
    destruct (compare_known op 0 t K) as [b0 [E0 _]]. rewrite E, E0. reflexivity.
Qed.

(** ** Examples: the hypotheses are met *)

Example single_ex :
  let c := mk_lsettings ["x"; "e"; "t"]%string (Some 7) [("e"%string, 5)] in
  let file := [("seed"%string, [("x"%string, [1; 2])])] in
  get_data_from_hdf c ["seed"%string] file = Ok (Some (2%nat, [[[1; 5; 7]; [2; 5; 7]]])).
Proof. reflexivity. Qed.
Example single_available :
  let c := mk_lsettings ["x"; "e"; "t"]%string (Some 7) [("e"%string, 5)] in
  forall l, In l ["e"; "t"]%string -> ~ Unavailable ["x"%string] (ls_missing_dict c) (ls_missing c) l.
Proof. intros c l _ [_ [_ H]]. discriminate H. Qed.
Example frame_ex :
  get_data_from_frame (mk_lsettings ["x"; "e"]%string (Some 7) [])
    ["a"; "b"]%string [("a"%string, Labels [("e"%string, 3)]); ("b"%string, Labels [("x"%string, 1)])] =
  Ok (Some (1%nat, [[[7; 3]]; [[1; 7]]])).
Proof. reflexivity. Qed.

Definition ex_file : dict ftable :=
  [("labels"%string, FColumns [("e"%string, [1; 3])]);
   ("vec"%string, FVector (vector_rows [[5; 6]; [7; 8; 9]]))].
Example complete_ex : forall c,
  In c [("labels"%string, Name "e", ">"%string, 2); ("vec"%string, Index 1, "<="%string, 8)] ->
  Complete ex_file 2 c.
Proof.
  intros c [<-|[<-|[]]]; (split; [unfold Known; simpl; tauto|]).
  - left. exists "e"%string, [("e"%string, [1; 3])], [1; 3]. repeat split.
  - right. exists 1%nat, [[5; 6]; [7; 8; 9]]. split; [reflexivity|]. split; [reflexivity|].
    split; [reflexivity|]. repeat constructor.
Qed.
Example entry_ex : Entry ex_file 2 1 "vec" (Index 1) 8.
Proof.
  apply (EntryVector ex_file 2 1 "vec" 1 [[5; 6]; [7; 8; 9]] [7; 8; 9] 8);
    [reflexivity|reflexivity|repeat constructor|reflexivity|reflexivity].
Qed.
Example short_ex :
  flat_map (fun w => match nth_error w 2 with Some x => [x] | None => [] end) [[5; 6]; [7; 8; 9]] = [9].
Proof. reflexivity. Qed.
Example index_ex : vector_rows [[5; 6]] = [(0%Z, 5); (1%Z, 6)].
Proof. reflexivity. Qed.

Print Assumptions C54_several.
Print Assumptions C54_none.
Print Assumptions C54_single.
Print Assumptions C54_skipped.
Print Assumptions C54_frame.
Print Assumptions C54_particle.
Print Assumptions C54_first_refuted.
Print Assumptions C55_unknown.
Print Assumptions C55_hdf.
Print Assumptions C55_short.
Print Assumptions C55_frame_ignores.
Print Assumptions C55_frame_named.
Print Assumptions C55_refuted.
Print Assumptions C55_index.
Print Assumptions C55_negative.
Print Assumptions C54_frame_skipped.
Print Assumptions C55_frame_kinds.
