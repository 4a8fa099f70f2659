(** Lemmas on the tables of the detector. *)
From Coq Require Import ZArith Lia FMapPositive.
From Verif Require Import Py PyFacts M_Detector S_Detector.
Open Scope Z_scope.

(** ** Arrays *)

Lemma nth_error_firstn' {A} n (l : list A) j : (j < n)%nat -> nth_error (firstn n l) j = nth_error l j.
Proof. revert l j. induction n as [| n IH]; intros [| x l] [| j] H; cbn; try reflexivity; try lia. apply IH. lia. Qed.

Lemma nth_error_skipn' {A} n (l : list A) j : nth_error (skipn n l) j = nth_error l (n + j).
Proof. revert l. induction n as [| n IH]; intros [| x l]; cbn; try reflexivity; [destruct j; reflexivity |]. apply IH. Qed.

Lemma skipn_skipn' {A} a b (l : list A) : skipn a (skipn b l) = skipn (b + a) l.
Proof. revert l. induction b as [| b IH]; intros l; cbn; [reflexivity |]. destruct l; [destruct a; reflexivity | apply IH]. Qed.

Lemma chunks_row {A} n (l : list A) i : (0 < n)%nat -> (i * n < length l)%nat ->
  nth_error (chunks n l) i = Some (firstn n (skipn (i * n) l)).
Proof.
  intros Hn. unfold chunks. assert (G : forall fuel (l : list A) i, (length l <= fuel)%nat -> (i * n < length l)%nat ->
    nth_error (chunks_aux fuel n l) i = Some (firstn n (skipn (i * n) l))).
  { clear l i. induction fuel as [| f IH]; intros l i HF HI; [lia |]. destruct l as [| x l]; [cbn in HI; lia |]. cbn [chunks_aux].
    destruct i as [| i]; [reflexivity |]. cbn [nth_error]. rewrite IH.
    - rewrite skipn_skipn'. reflexivity.
    - rewrite skipn_length. cbn [length] in HF |- *. lia.
    - rewrite skipn_length. cbn [length Nat.mul] in HI |- *. lia. }
  intros HI. apply G; [lia | exact HI].
Qed.

Lemma chunks_none {A} n (l : list A) i : (0 < n)%nat -> (length l <= i * n)%nat -> nth_error (chunks n l) i = None.
Proof.
  intros Hn. unfold chunks. generalize (length l) at 2. intros fuel. revert l i. induction fuel as [| f IH]; intros l i HI; [destruct i; reflexivity |].
  destruct l as [| x l]; [destruct i; reflexivity |]. cbn [chunks_aux]. destruct i as [| i]; [cbn in HI; lia |]. cbn [nth_error]. apply IH.
  rewrite skipn_length. cbn [length Nat.mul] in HI |- *. lia.
Qed.

Lemma chunks_length {A} n (l : list A) k : (0 < n)%nat -> length l = (k * n)%nat -> length (chunks n l) = k.
Proof.
  intros Hn HL. apply Nat.le_antisymm.
  - apply nth_error_None. apply chunks_none; [exact Hn | lia].
  - destruct k as [| k]; [lia |]. assert (H : nth_error (chunks n l) k <> None).
    { rewrite chunks_row; [discriminate | exact Hn | rewrite HL; cbn; lia]. }
    apply nth_error_Some in H. lia.
Qed.

Lemma chunks_entry {A} n (l : list A) i j k : (0 < n)%nat -> length l = (k * n)%nat -> (i < k)%nat ->
  exists row, nth_error (chunks n l) i = Some row /\ length row = n /\ ((j < n)%nat -> nth_error row j = nth_error l (i * n + j)).
Proof.
  intros Hn HL Hi. assert ((i * n < length l)%nat /\ (i * n + n <= length l)%nat) as (H1 & H2) by (rewrite HL; nia).
  exists (firstn n (skipn (i * n) l)). split; [apply chunks_row; assumption |]. split.
  - rewrite firstn_length, skipn_length. lia.
  - intros Hj. rewrite nth_error_firstn' by exact Hj. apply nth_error_skipn'.
Qed.

Lemma get_nth {A} (l : list A) i : (i < length l)%nat -> exists x, nth_error l i = Some x /\ get l (Z.of_nat i) = Ok x.
Proof.
  intros H. destruct (nth_error l i) as [x |] eqn:E; [| apply nth_error_None in E; lia]. exists x. split; [reflexivity |].
  unfold get, python_index. replace ((0 <=? Z.of_nat i) && (Z.of_nat i <? Z.of_nat (length l))) with true.
  - cbn [bind]. rewrite Nat2Z.id, E. reflexivity.
  - symmetry. apply andb_true_intro. split; [apply Z.leb_le; lia | apply Z.ltb_lt; lia].
Qed.

(** ** Shapes *)

Lemma flat_length : length (concat x_coords_flat_lines) = (86 * 60 * 3)%nat.
Proof. apply Nat.eqb_eq. vm_compute. reflexivity. Qed.

Lemma grid_length : length (concat X_IC79_coords_flat_lines) = (10 * 10 * 60 * 3)%nat.
Proof. apply Nat.eqb_eq. vm_compute. reflexivity. Qed.

Lemma triple (l : list Z) : length l = 3%nat -> exists x y z, l = [x; y; z].
Proof. destruct l as [| x [| y [| z [|]]]]; try discriminate. exists x, y, z. reflexivity. Qed.

(** The coordinates of a DOM are those of the flat list. *)
Lemma x_coords_at s om : (s < 86)%nat -> (om < 60)%nat ->
  exists st x y z, nth_error x_coords s = Some st /\ nth_error st om = Some [x; y; z] /\ length st = 60%nat /\ DomAt s om x y z.
Proof.
  intros Hs Ho. pose proof (chunks_length 3 _ (86 * 60) ltac:(lia) flat_length) as L3.
  destruct (chunks_entry 60 (chunks 3 (concat x_coords_flat_lines)) s om 86 ltac:(lia) L3 Hs) as (st & E1 & LS & E2). specialize (E2 Ho).
  assert (H : (s * 60 + om < 86 * 60)%nat) by lia.
  destruct (chunks_entry 3 (concat x_coords_flat_lines) (s * 60 + om) 0 (86 * 60) ltac:(lia) flat_length H) as (c & E3 & LC & F0).
  destruct (chunks_entry 3 (concat x_coords_flat_lines) (s * 60 + om) 1 (86 * 60) ltac:(lia) flat_length H) as (c1 & E4 & _ & F1).
  destruct (chunks_entry 3 (concat x_coords_flat_lines) (s * 60 + om) 2 (86 * 60) ltac:(lia) flat_length H) as (c2 & E5 & _ & F2).
  assert (c1 = c) by congruence. assert (c2 = c) by congruence. subst c1 c2. destruct (triple c LC) as (x & y & z & ->).
  specialize (F0 ltac:(lia)). specialize (F1 ltac:(lia)). specialize (F2 ltac:(lia)). cbn [nth_error] in F0, F1, F2.
  exists st, x, y, z. split; [exact E1 |]. split; [rewrite E2; exact E3 |]. split; [exact LS |].
  unfold DomAt. cbv zeta. split; [exact Hs |]. split; [exact Ho |].
  replace (3 * (60 * s + om))%nat with ((s * 60 + om) * 3 + 0)%nat by lia.
  split; [symmetry; exact F0 |]. replace ((s * 60 + om) * 3 + 0 + 1)%nat with ((s * 60 + om) * 3 + 1)%nat by lia.
  split; [symmetry; exact F1 |]. replace ((s * 60 + om) * 3 + 0 + 2)%nat with ((s * 60 + om) * 3 + 2)%nat by lia. symmetry. exact F2.
Qed.

Lemma domat_unique s om x y z x' y' z' : DomAt s om x y z -> DomAt s om x' y' z' -> x = x' /\ y = y' /\ z = z'.
Proof. intros (_ & _ & A & B & C) (_ & _ & A' & B' & C'). repeat split; congruence. Qed.

Lemma grid_at a b d : (a < 10)%nat -> (b < 10)%nat -> (d < 60)%nat ->
  exists plane cell x y z, nth_error X_IC79_coords a = Some plane /\ nth_error plane b = Some cell /\ nth_error cell d = Some [x; y; z] /\
    length plane = 10%nat /\ length cell = 60%nat /\ CellAt a b d x y z.
Proof.
  intros Ha Hb Hd. pose proof (chunks_length 3 _ (10 * 10 * 60) ltac:(lia) grid_length) as L3.
  pose proof (chunks_length 60 _ (10 * 10) ltac:(lia) L3) as L60.
  destruct (chunks_entry 10 (chunks 60 (chunks 3 (concat X_IC79_coords_flat_lines))) a b 10 ltac:(lia) L60 Ha) as (plane & E1 & LP & E2). specialize (E2 Hb).
  assert (H1 : (a * 10 + b < 10 * 10)%nat) by lia.
  destruct (chunks_entry 60 (chunks 3 (concat X_IC79_coords_flat_lines)) (a * 10 + b) d (10 * 10) ltac:(lia) L3 H1) as (cell & E3 & LC & E4). specialize (E4 Hd).
  set (k := ((a * 10 + b) * 60 + d)%nat) in *. assert (H : (k < 10 * 10 * 60)%nat) by (unfold k; lia).
  destruct (chunks_entry 3 (concat X_IC79_coords_flat_lines) k 0 (10 * 10 * 60) ltac:(lia) grid_length H) as (c & E5 & L & F0).
  destruct (chunks_entry 3 (concat X_IC79_coords_flat_lines) k 1 (10 * 10 * 60) ltac:(lia) grid_length H) as (c1 & E6 & _ & F1).
  destruct (chunks_entry 3 (concat X_IC79_coords_flat_lines) k 2 (10 * 10 * 60) ltac:(lia) grid_length H) as (c2 & E7 & _ & F2).
  assert (c1 = c) by congruence. assert (c2 = c) by congruence. subst c1 c2. destruct (triple c L) as (x & y & z & ->).
  specialize (F0 ltac:(lia)). specialize (F1 ltac:(lia)). specialize (F2 ltac:(lia)). cbn [nth_error] in F0, F1, F2.
  exists plane, cell, x, y, z. split; [exact E1 |]. split; [rewrite E2; exact E3 |]. split; [rewrite E4; exact E5 |]. split; [exact LP |]. split; [exact LC |].
  unfold CellAt. cbv zeta. split; [exact Ha |]. split; [exact Hb |]. split; [exact Hd |].
  replace (3 * (60 * (10 * a + b) + d))%nat with (k * 3 + 0)%nat by (unfold k; lia).
  split; [symmetry; exact F0 |]. replace (k * 3 + 0 + 1)%nat with (k * 3 + 1)%nat by lia.
  split; [symmetry; exact F1 |]. replace (k * 3 + 0 + 2)%nat with (k * 3 + 2)%nat by lia. symmetry. exact F2.
Qed.

Lemma cellat_unique a b d x y z x' y' z' : CellAt a b d x y z -> CellAt a b d x' y' z' -> x = x' /\ y = y' /\ z = z'.
Proof. intros (_ & _ & _ & A & B & C) (_ & _ & _ & A' & B' & C'). repeat split; congruence. Qed.

Lemma x_coords_length : length x_coords = 86%nat.
Proof. apply chunks_length; [lia |]. apply chunks_length; [lia | exact flat_length]. Qed.

Lemma grid_planes : length X_IC79_coords = 10%nat.
Proof. apply chunks_length; [lia |]. apply chunks_length; [lia |]. apply chunks_length; [lia | exact grid_length]. Qed.

(** ** Keys *)

Fixpoint fresh (seen : PositiveMap.t unit) (l : list positive) : bool :=
  match l with
  | [] => true
  | k :: l' => match PositiveMap.find k seen with Some _ => false | None => fresh (PositiveMap.add k tt seen) l' end
  end.

Lemma fresh_nodup l : forall seen, fresh seen l = true -> NoDup l /\ forall k, In k l -> PositiveMap.find k seen = None.
Proof.
  induction l as [| k l IH]; intros seen H; cbn [fresh] in H; [split; [constructor | intros k []] |].
  destruct (PositiveMap.find k seen) eqn:E; [discriminate |]. destruct (IH _ H) as (ND & N). split.
  - constructor; [| exact ND]. intros I. specialize (N k I). rewrite PositiveMap.gss in N. discriminate.
  - intros k' [<- | I]; [exact E |]. specialize (N k' I). destruct (Pos.eq_dec k' k) as [-> | D]; [exact E |].
    rewrite PositiveMap.gso in N by exact D. exact N.
Qed.

Lemma nodup_map {A B} (f : A -> B) (l : list A) : NoDup (map f l) -> NoDup l.
Proof. induction l as [| x l IH]; cbn; intros H; [constructor |]. inversion H as [| ? ? N ND]; subst. constructor; [intros I; apply N, in_map, I | apply IH, ND]. Qed.

Section Dicts.
  Context {K A : Type} (eqb : K -> K -> bool).
  Hypothesis eqb_spec : forall k k', eqb k k' = true <-> k = k'.

  Lemma eqb_refl k : eqb k k = true.
  Proof. apply eqb_spec. reflexivity. Qed.

  Lemma lookup_in (d : list (K * A)) k v : lookup eqb k d = Some v -> In (k, v) d.
  Proof.
    induction d as [| (k', v') d IH]; cbn [lookup]; [discriminate |]. destruct (eqb k k') eqn:E; intros H; [left | right; apply IH, H].
    apply eqb_spec in E. congruence.
  Qed.

  Lemma in_lookup (d : list (K * A)) k v : NoDup (map fst d) -> In (k, v) d -> lookup eqb k d = Some v.
  Proof.
    induction d as [| (k', v') d IH]; cbn [lookup map fst]; [intros _ [] |]. intros ND. inversion ND as [| ? ? N ND']; subst. intros [E | I].
    - injection E as -> ->. rewrite eqb_refl. reflexivity.
    - destruct (eqb k k') eqn:E; [| apply IH; assumption]. apply eqb_spec in E. subst k'. destruct N. apply (in_map fst) in I. exact I.
  Qed.

  Lemma lookup_none (d : list (K * A)) k : (forall v, ~ In (k, v) d) -> lookup eqb k d = None.
  Proof. intros H. destruct (lookup eqb k d) as [v |] eqn:E; [apply lookup_in in E; destruct (H v E) | reflexivity]. Qed.

  Lemma lookup_app (d d' : list (K * A)) k : lookup eqb k (d ++ d') = match lookup eqb k d with Some v => Some v | None => lookup eqb k d' end.
  Proof. induction d as [| (k', v') d IH]; cbn [app lookup]; [reflexivity |]. destruct (eqb k k'); [reflexivity | exact IH]. Qed.

  Lemma lookup_store (d : list (K * A)) k k' v : lookup eqb k (store eqb k' v d) = if eqb k k' then Some v else lookup eqb k d.
  Proof.
    induction d as [| (k1, v1) d IH]; cbn [store lookup]; [reflexivity |]. destruct (eqb k' k1) eqn:E1.
    - apply eqb_spec in E1. subst k1. cbn [lookup]. destruct (eqb k k'); reflexivity.
    - cbn [lookup]. destruct (eqb k k1) eqn:E2; [| exact IH]. apply eqb_spec in E2. subst k1.
      destruct (eqb k k') eqn:E3; [| reflexivity]. apply eqb_spec in E3. subst k'. rewrite eqb_refl in E1. discriminate.
  Qed.

  (** A dictionary filled with values whose keys differ *)
  Lemma filled {B} (key : B -> K) (val : B -> A) (l : list B) : NoDup (map key l) -> forall d k,
    lookup eqb k (fold_left (fun d x => store eqb (key x) (val x) d) l d) =
    match find (fun x => eqb k (key x)) l with Some x => Some (val x) | None => lookup eqb k d end.
  Proof.
    induction l as [| x l IH]; intros ND d k; cbn [fold_left find map] in *; [reflexivity |]. inversion ND as [| ? ? N ND']; subst.
    rewrite IH by exact ND'. destruct (find (fun x => eqb k (key x)) l) as [y |] eqn:F.
    - apply find_some in F. destruct F as (I & E). apply eqb_spec in E. subst k. destruct (eqb (key y) (key x)) eqn:E; [| reflexivity].
      apply eqb_spec in E. destruct N. rewrite <- E. apply in_map, I.
    - rewrite lookup_store. destruct (eqb k (key x)); reflexivity.
  Qed.
End Dicts.

Lemma zeqb_spec k k' : Z.eqb k k' = true <-> k = k'.
Proof. apply Z.eqb_eq. Qed.
Lemma pair_spec k k' : pair_eqb k k' = true <-> k = k'.
Proof.
  unfold pair_eqb. rewrite Bool.andb_true_iff, !Z.eqb_eq. destruct k, k'. cbn. split; [intros (-> & ->); reflexivity | intros E; injection E as -> ->; auto].
Qed.
Lemma triple_spec k k' : triple_eqb k k' = true <-> k = k'.
Proof.
  unfold triple_eqb. rewrite Bool.andb_true_iff, pair_spec, Z.eqb_eq. destruct k as (p, z), k' as (p', z'). cbn. split; [intros (-> & ->); reflexivity | intros E; injection E as -> ->; auto].
Qed.

(** ** Rounding *)

Lemma np_round_iff c r : np_round c = r <-> Rounded c r.
Proof.
  unfold np_round, Rounded. pose proof (Z.div_mod c 100 ltac:(lia)) as D. pose proof (Z.mod_pos_bound c 100 ltac:(lia)) as M.
  set (q := c / 100) in *. set (m := c mod 100) in *. rewrite D.
  destruct (Z.ltb_spec m 50) as [L | L]; [| destruct (Z.ltb_spec 50 m) as [L' | L']; [| destruct (Z.even q) eqn:EV]].
  - split; [intros <-; split; lia | intros (A & B); lia].
  - split; [intros <-; split; lia | intros (A & B); lia].
  - apply Z.even_spec in EV. split.
    + intros <-. split; [lia | intros _; exact EV].
    + intros (A & B). assert (C : r = q \/ r = q + 1) by lia. destruct C as [C | C]; [lia |]. subst r.
      destruct (B ltac:(lia)) as (k & K). destruct EV as (j & J). lia.
  - assert (OD : Z.Odd q) by (rewrite <- Z.odd_spec, <- Z.negb_even, EV; reflexivity). destruct OD as (j & J). split.
    + intros <-. split; [lia | intros _; exists (j + 1); lia].
    + intros (A & B). assert (C : r = q \/ r = q + 1) by lia. destruct C as [C | C]; [| lia]. subst r. destruct (B ltac:(lia)) as (k & K). lia.
Qed.

(** ** Dictionary of the rounded coordinates *)

Definition key_of (t : list (list (list Z))) (p : Z * Z) : Z * Z * Z :=
  match bind (get t (fst p)) (fun st => bind (get st (snd p)) (fun c =>
    match map np_round c with [x; y; z] => Ok (x, y, z) | _ => Err ValueError end)) with Ok k => k | Err _ => (0, 0, 0) end.
Definition encode (k : Z * Z * Z) : positive :=
  let '(x, y, z) := k in Z.to_pos (((x + 2000) * 4096 + (y + 2000)) * 4096 + (z + 2000)).
Lemma positions_checked : fresh (PositiveMap.empty unit) (map (fun p => encode (key_of x_coords p)) doms) = true.
Proof. vm_compute. reflexivity. Qed.

Lemma nodup_encoded {A} (f : A -> Z * Z * Z) l : fresh (PositiveMap.empty unit) (map (fun p => encode (f p)) l) = true -> NoDup (map f l).
Proof. intros H. apply (nodup_map encode). rewrite map_map. apply (fresh_nodup _ _ H). Qed.

Lemma keys_nodup : NoDup (map (key_of x_coords) doms).
Proof. exact (nodup_encoded (key_of x_coords) doms positions_checked). Qed.

Lemma in_doms p : In p doms <-> exists s om : nat, (s < 86)%nat /\ (om < 60)%nat /\ p = (Z.of_nat s, Z.of_nat om).
Proof.
  unfold doms, range. destruct p as (i, j). rewrite in_prod_iff, !in_map_iff. split.
  - intros ((s & <- & S) & (om & <- & O)). apply in_seq in S, O. exists s, om. repeat split; lia.
  - intros (s & om & S & O & E). injection E as -> ->. split; eexists; (split; [reflexivity |]); apply in_seq; lia.
Qed.

Lemma rounded_at s om x y z : DomAt s om x y z ->
  rounded (Z.of_nat s) (Z.of_nat om) = Ok (np_round x, np_round y, np_round z) /\
  key_of x_coords (Z.of_nat s, Z.of_nat om) = (np_round x, np_round y, np_round z).
Proof.
  intros D. pose proof D as (Hs & Ho & _). destruct (x_coords_at s om Hs Ho) as (st & x' & y' & z' & E1 & E2 & LS & D').
  destruct (domat_unique _ _ _ _ _ _ _ _ D D') as (<- & <- & <-).
  destruct (get_nth x_coords s) as (st' & F1 & G1); [rewrite x_coords_length; exact Hs |]. assert (st' = st) by congruence. subst st'.
  destruct (get_nth st om) as (c & F2 & G2); [rewrite LS; exact Ho |]. assert (c = [x; y; z]) by congruence. subst c.
  unfold rounded, key_of. cbn [fst snd]. rewrite G1. cbn [bind]. rewrite G2. cbn [bind map]. split; reflexivity.
Qed.

Lemma dict_filled : dom_coord_dict = Ok (fold_left (fun d p => store triple_eqb (key_of x_coords p) p d) doms []).
Proof.
  unfold dom_coord_dict. assert (G : forall l d, (forall p, In p l -> In p doms) ->
    fold_left (fun d '(s, om) => bind d (fun d => bind (rounded s om) (fun k => Ok (store triple_eqb k (s, om) d)))) l (Ok d) =
    Ok (fold_left (fun d p => store triple_eqb (key_of x_coords p) p d) l d)).
  { induction l as [| p l IH]; intros d H; [reflexivity |]. cbn [fold_left]. rewrite <- IH by (intros q I; apply H; right; exact I). f_equal.
    destruct (proj1 (in_doms p) (H p (or_introl eq_refl))) as (s & om & Hs & Ho & ->).
    destruct (x_coords_at s om Hs Ho) as (st & x & y & z & _ & _ & _ & D). destruct (rounded_at _ _ _ _ _ D) as (R & K). rewrite R, K. reflexivity. }
  apply G. auto.
Qed.

(** ** Square grid *)

Definition same_coords (l l' : list (list Z)) : bool := if list_eq_dec (list_eq_dec Z.eq_dec) l l' then true else false.
Definition grid_checked_of (dict : list (Z * (Z * Z))) (hexes : list ((Z * Z) * Z)) (t : list (list (list Z))) (g : list (list (list (list Z)))) : bool :=
  forallb (fun '(s, (a, b)) =>
    (1 <=? s) && (s <=? 78) && (0 <=? a + 4) && (a + 4 <? 10) && (0 <=? b + 5) && (b + 5 <? 10) &&
    match lookup pair_eqb (a, b) hexes with Some s' => s' =? s | None => false end &&
    match nth_error t (Z.to_nat (s - 1)), nth_error g (Z.to_nat (a + 4)) with
    | Some st, Some plane => match nth_error plane (Z.to_nat (b + 5)) with Some cell => same_coords st cell | None => false end
    | _, _ => false
    end) dict &&
  forallb (fun '(h, s) => match lookup Z.eqb s dict with Some h' => pair_eqb h h' | None => false end) hexes &&
  forallb (fun s => match lookup Z.eqb (s + 1) dict with Some _ => true | None => false end) (range 78).
Lemma grid_checked : grid_checked_of string_hex_coord_dict hex_coord_string_dict x_coords X_IC79_coords = true.
Proof. vm_compute. reflexivity. Qed.

Definition has_string (dict : list (Z * (Z * Z))) (a b : Z) : bool := existsb (fun '(_, (a', b')) => (a' + 4 =? a) && (b' + 5 =? b)) dict.
Definition empty_checked_of (dict : list (Z * (Z * Z))) (g : list (list (list (list Z)))) : bool :=
  forallb (fun a => forallb (fun b =>
    has_string dict (Z.of_nat a) (Z.of_nat b) ||
    match nth_error g a with
    | Some plane => match nth_error plane b with Some cell => forallb (forallb (Z.eqb 0)) cell | None => false end
    | None => false
    end) (seq 0 10)) (seq 0 10).
Lemma empty_checked : empty_checked_of string_hex_coord_dict X_IC79_coords = true.
Proof. vm_compute. reflexivity. Qed.

Lemma mask_value : IC79_real_DOMs_mask =
  Ok (map (fun a => map (fun b => repeat (has_string string_hex_coord_dict (Z.of_nat a) (Z.of_nat b)) 60) (seq 0 10)) (seq 0 10)).
Proof. vm_compute. reflexivity. Qed.

Lemma hex_keys : NoDup (map fst string_hex_coord_dict).
Proof.
  apply (nodup_map Z.to_pos). apply (fresh_nodup _ (PositiveMap.empty unit)). vm_compute. reflexivity.
Qed.

Lemma coord_keys : NoDup (map fst hex_coord_string_dict).
Proof.
  apply (nodup_map (fun p => Z.to_pos ((fst p + 50) * 100 + (snd p + 50)))). apply (fresh_nodup _ (PositiveMap.empty unit)). vm_compute. reflexivity.
Qed.

(** ** Tables of shape [86, 60] *)

Definition table_checked {A B} (f : nat -> nat -> A -> B -> bool) (t : list (list A)) (u : list (list B)) : bool :=
  Nat.eqb (length t) 86 && Nat.eqb (length u) 86 &&
  forallb (fun '(s, (r, v)) => Nat.eqb (length r) 60 && Nat.eqb (length v) 60 && forallb (fun '(om, (x, y)) => f s om x y) (combine (seq 0 60) (combine r v)))
    (combine (seq 0 86) (combine t u)).

Lemma nth_error_combine {A B} (l : list A) (m : list B) i x y : nth_error l i = Some x -> nth_error m i = Some y -> nth_error (combine l m) i = Some (x, y).
Proof. revert m i. induction l as [| a l IH]; intros [| b m] [| i]; cbn; try discriminate; [congruence | apply IH]. Qed.

Lemma nth_error_seq' i n : (i < n)%nat -> nth_error (seq 0 n) i = Some i.
Proof.
  intros H. rewrite nth_error_nth' with (d := 0%nat) by (rewrite seq_length; exact H). rewrite seq_nth by exact H. reflexivity.
Qed.

Lemma table_at {A B} (f : nat -> nat -> A -> B -> bool) t u : table_checked f t u = true -> forall s om, (s < 86)%nat -> (om < 60)%nat ->
  exists x y, At t s om x /\ At u s om y /\ f s om x y = true.
Proof.
  unfold table_checked. intros H s om Hs Ho. apply andb_prop in H. destruct H as (H & F). apply andb_prop in H. destruct H as (L1 & L2).
  apply Nat.eqb_eq in L1, L2. rewrite forallb_forall in F.
  destruct (nth_error t s) as [r |] eqn:E1; [| apply nth_error_None in E1; lia]. destruct (nth_error u s) as [v |] eqn:E2; [| apply nth_error_None in E2; lia].
  specialize (F (s, (r, v))). assert (I : In (s, (r, v)) (combine (seq 0 86) (combine t u))).
  { apply nth_error_In with (n := s). apply nth_error_combine; [apply nth_error_seq', Hs | apply nth_error_combine; assumption]. }
  specialize (F I). cbv beta iota in F. apply andb_prop in F. destruct F as (F & G). apply andb_prop in F. destruct F as (L3 & L4).
  apply Nat.eqb_eq in L3, L4. rewrite forallb_forall in G.
  destruct (nth_error r om) as [x |] eqn:E3; [| apply nth_error_None in E3; lia]. destruct (nth_error v om) as [y |] eqn:E4; [| apply nth_error_None in E4; lia].
  exists x, y. split; [exists r; auto |]. split; [exists v; auto |]. apply (G (om, (x, y))). apply nth_error_In with (n := om).
  apply nth_error_combine; [apply nth_error_seq', Ho | apply nth_error_combine; assumption].
Qed.

Lemma table_bounds {A B} (f : nat -> nat -> A -> B -> bool) t u : table_checked f t u = true -> forall s om x y, At t s om x -> At u s om y ->
  (s < 86)%nat /\ (om < 60)%nat /\ f s om x y = true.
Proof.
  intros H s om x y (r & E1 & E2) (v & E3 & E4). pose proof H as H'. unfold table_checked in H'. apply andb_prop in H'. destruct H' as (H' & F).
  apply andb_prop in H'. destruct H' as (L1 & L2). apply Nat.eqb_eq in L1, L2.
  assert (Hs : (s < 86)%nat) by (rewrite <- L1; apply nth_error_Some; congruence). rewrite forallb_forall in F.
  specialize (F (s, (r, v))). assert (I : In (s, (r, v)) (combine (seq 0 86) (combine t u))).
  { apply nth_error_In with (n := s). apply nth_error_combine; [apply nth_error_seq', Hs | apply nth_error_combine; assumption]. }
  specialize (F I). cbv beta iota in F. apply andb_prop in F. destruct F as (F & _). apply andb_prop in F. destruct F as (L3 & _). apply Nat.eqb_eq in L3.
  assert (Ho : (om < 60)%nat) by (rewrite <- L3; apply nth_error_Some; congruence). split; [exact Hs |]. split; [exact Ho |].
  destruct (table_at f t u H s om Hs Ho) as (x' & y' & (r' & A1 & A2) & (v' & B1 & B2) & T).
  assert (r' = r) by congruence. assert (v' = v) by congruence. subst. congruence.
Qed.

Definition efficiency_checked : bool := table_checked (fun _ _ e g => ((e =? 100) || (e =? 135)) && ((g =? e) || (g =? 0))) rel_dom_eff rel_dom_eff_without_bad_doms.
Lemma efficiencies : efficiency_checked = true.
Proof. vm_compute. reflexivity. Qed.

(** ** Noise rates *)

Definition value (v : option (option Z)) : Z := match v with Some (Some v) => v | _ => 0 end.

Lemma noise_rate_value s om : noise_rate s om = value (lookup pair_eqb (s, om) dom_noise_rate_dict).
Proof. unfold noise_rate. destruct (lookup _ _ _) as [[v |] |]; reflexivity. Qed.

Definition lines_checked : bool :=
  Nat.eqb (length dom_noise_rate_lines) 86 &&
  forallb (fun '(s, line) => forallb (fun '((s', _), _) => s' =? Z.of_nat s + 1) line) (combine (seq 0 86) dom_noise_rate_lines).
Lemma lines_ok : lines_checked = true.
Proof. vm_compute. reflexivity. Qed.

Lemma lookup_concat {A} (k : Z * Z) (ls : list (list ((Z * Z) * A))) s line : nth_error ls s = Some line ->
  (forall i l, nth_error ls i = Some l -> i <> s -> lookup pair_eqb k l = None) -> lookup pair_eqb k (concat ls) = lookup pair_eqb k line.
Proof.
  revert s. induction ls as [| l ls IH]; intros s E O; [destruct s; discriminate |]. cbn [concat]. rewrite lookup_app. destruct s as [| s].
  - injection E as ->. destruct (lookup pair_eqb k line) as [v |]; [reflexivity |]. clear IH. 
    assert (O' : forall i l, nth_error ls i = Some l -> lookup pair_eqb k l = None) by (intros i l H; apply (O (S i) l H); discriminate).
    clear O. induction ls as [| l ls IH]; [reflexivity |]. cbn [concat]. rewrite lookup_app, (O' 0%nat l eq_refl). apply IH. intros i l' H. apply (O' (S i) l' H).
  - rewrite (O 0%nat l eq_refl) by discriminate. apply (IH s E). intros i l' H D. apply (O (S i) l' H). congruence.
Qed.

Lemma lookup_line (s : nat) om : (s < 86)%nat -> exists line, nth_error dom_noise_rate_lines s = Some line /\
  lookup pair_eqb (Z.of_nat s + 1, om) dom_noise_rate_dict = lookup pair_eqb (Z.of_nat s + 1, om) line.
Proof.
  intros Hs. pose proof lines_ok as H. unfold lines_checked in H. apply andb_prop in H. destruct H as (L & F). apply Nat.eqb_eq in L. rewrite forallb_forall in F.
  destruct (nth_error dom_noise_rate_lines s) as [line |] eqn:E; [| apply nth_error_None in E; lia]. exists line. split; [reflexivity |].
  apply (lookup_concat _ _ s line E). intros i l Ei D. apply lookup_none; [exact pair_spec |]. intros v I.
  assert (Hi : (i < 86)%nat) by (rewrite <- L; apply nth_error_Some; congruence).
  assert (J : In (i, l) (combine (seq 0 86) dom_noise_rate_lines)) by (apply nth_error_In with (n := i); apply nth_error_combine; [apply nth_error_seq', Hi | exact Ei]).
  specialize (F _ J). cbv beta iota in F. rewrite forallb_forall in F. specialize (F _ I). cbv beta iota in F. apply Z.eqb_eq in F. lia.
Qed.

(** The two DOMs that are in use and have no rate *)
Definition silent (s om : nat) : bool := (Nat.eqb s 32 && Nat.eqb om 5) || (Nat.eqb s 44 && Nat.eqb om 18).

Definition rates_checked (lines : list (list ((Z * Z) * option Z))) (mask : list (list bool)) : bool :=
  Nat.eqb (length mask) 86 &&
  forallb (fun '(s, (line, row)) => Nat.eqb (length row) 60 && forallb (fun '(om, m) =>
      let r := value (lookup pair_eqb (Z.of_nat s + 1, Z.of_nat om + 1) line) in
      (0 <=? r) && Bool.eqb (r =? 0) (negb m || silent s om) && negb (negb m && silent s om)) (combine (seq 0 60) row))
    (combine (seq 0 86) (combine lines mask)).
Lemma rates_ok : rates_checked dom_noise_rate_lines bad_doms_mask = true.
Proof. vm_compute. reflexivity. Qed.

Lemma rates_line lines mask s om line : rates_checked lines mask = true -> (s < 86)%nat -> (om < 60)%nat -> nth_error lines s = Some line ->
  let r := value (lookup pair_eqb (Z.of_nat s + 1, Z.of_nat om + 1) line) in
  exists m, At mask s om m /\ 0 <= r /\ (r = 0 <-> m = false \/ silent s om = true) /\ (silent s om = true -> m = true).
Proof.
  intros H Hs Ho E r. unfold rates_checked in H. apply andb_prop in H. destruct H as (L & F). apply Nat.eqb_eq in L. rewrite forallb_forall in F.
  destruct (nth_error mask s) as [row |] eqn:R; [| apply nth_error_None in R; lia].
  specialize (F (s, (line, row))). assert (I : In (s, (line, row)) (combine (seq 0 86) (combine lines mask))).
  { apply nth_error_In with (n := s). apply nth_error_combine; [apply nth_error_seq', Hs | apply nth_error_combine; assumption]. }
  specialize (F I). cbv beta iota in F. apply andb_prop in F. destruct F as (L' & F). apply Nat.eqb_eq in L'. rewrite forallb_forall in F.
  destruct (nth_error row om) as [m |] eqn:M; [| apply nth_error_None in M; lia].
  specialize (F (om, m)). assert (J : In (om, m) (combine (seq 0 60) row)) by (apply nth_error_In with (n := om); apply nth_error_combine; [apply nth_error_seq', Ho | exact M]).
  specialize (F J). cbv beta iota zeta in F. exists m. split; [exists row; auto |].
  fold r in F. apply andb_prop in F. destruct F as (F & F3). apply andb_prop in F. destruct F as (F1 & F2).
  apply Z.leb_le in F1. apply Bool.eqb_prop in F2. split; [exact F1 |]. rewrite <- Z.eqb_eq, F2. clear - F3. destruct m, (silent s om); cbn in *; intuition congruence.
Qed.

Lemma rates_at s om : (s < 86)%nat -> (om < 60)%nat -> exists m, At bad_doms_mask s om m /\
  0 <= noise_rate (Z.of_nat s + 1) (Z.of_nat om + 1) /\
  (noise_rate (Z.of_nat s + 1) (Z.of_nat om + 1) = 0 <-> m = false \/ silent s om = true) /\ (silent s om = true -> m = true).
Proof.
  intros Hs Ho. destruct (lookup_line s (Z.of_nat om + 1) Hs) as (line & E & V). rewrite noise_rate_value, V.
  exact (rates_line _ _ s om line rates_ok Hs Ho E).
Qed.

Lemma map_range {A} (f : Z -> A) n i x : nth_error (map f (range n)) i = Some x <-> (i < n)%nat /\ x = f (Z.of_nat i).
Proof.
  unfold range. rewrite map_map, nth_error_map. split.
  - intros H. destruct (nth_error (seq 0 n) i) as [j |] eqn:E; [| discriminate]. cbn [option_map] in H. injection H as <-.
    assert (Hi : (i < n)%nat) by (rewrite <- (seq_length n 0); apply nth_error_Some; congruence). rewrite nth_error_seq' in E by exact Hi. injection E as <-. auto.
  - intros (Hi & ->). rewrite nth_error_seq' by exact Hi. reflexivity.
Qed.

Lemma dom_noise_rates_at s om r : At dom_noise_rates s om r <-> (s < 86)%nat /\ (om < 60)%nat /\ r = noise_rate (Z.of_nat s + 1) (Z.of_nat om + 1).
Proof.
  unfold dom_noise_rates, At. split.
  - intros (row & E1 & E2). apply map_range in E1. destruct E1 as (Hs & ->). apply map_range in E2. destruct E2 as (Ho & ->). auto.
  - intros (Hs & Ho & ->). eexists. split; [apply map_range; split; [exact Hs | reflexivity] |]. apply map_range. split; [exact Ho | reflexivity].
Qed.

Definition encode_key (p : Z * Z) : positive := Z.to_pos (fst p * 1000 + snd p).
Lemma noise_keys_checked : fresh (PositiveMap.empty unit) (map encode_key (map fst dom_noise_rate_dict)) = true.
Proof. vm_compute. reflexivity. Qed.
Lemma noise_keys : NoDup (map fst dom_noise_rate_dict).
Proof. exact (nodup_map encode_key _ (proj1 (fresh_nodup _ _ noise_keys_checked))). Qed.
