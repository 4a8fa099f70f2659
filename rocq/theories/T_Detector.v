(** * Tables of the detector: theorems C182 to C186 *)
From Coq Require Import ZArith Lia Reals Lra.
From Verif Require Import Py PyFacts M_Detector S_Detector L_Detector M_Noise L_Noise.
Open Scope Z_scope.

(** ** C182: coordinates of the DOMs *)

(** The lists of numbers fill the arrays exactly. *)
Theorem C182_shapes :
  length x_coords = 86%nat /\ (forall st, In st x_coords -> length st = 60%nat) /\
  (forall s om, (s < 86)%nat -> (om < 60)%nat -> exists st x y z, nth_error x_coords s = Some st /\ nth_error st om = Some [x; y; z] /\ DomAt s om x y z) /\
  length X_IC79_coords = 10%nat /\
  (forall a b d, (a < 10)%nat -> (b < 10)%nat -> (d < 60)%nat -> exists plane cell x y z, nth_error X_IC79_coords a = Some plane /\
     nth_error plane b = Some cell /\ nth_error cell d = Some [x; y; z] /\ length plane = 10%nat /\ length cell = 60%nat /\ CellAt a b d x y z).
Proof.
  split; [exact x_coords_length |]. split.
  { intros st I. apply In_nth_error in I. destruct I as (s & E). assert (H : (s < 86)%nat) by (rewrite <- x_coords_length; apply nth_error_Some; congruence).
    destruct (x_coords_at s 0 H ltac:(lia)) as (st' & x & y & z & E' & _ & L & _). rewrite E in E'. injection E' as ->. exact L. }
  split; [| split; [exact grid_planes |]].
  - intros s om Hs Ho. destruct (x_coords_at s om Hs Ho) as (st & x & y & z & E1 & E2 & _ & D). exists st, x, y, z. auto.
  - exact grid_at.
Qed.

Lemma grid_entry s a b : lookup Z.eqb s string_hex_coord_dict = Some (a, b) ->
  1 <= s <= 78 /\ 0 <= a + 4 < 10 /\ 0 <= b + 5 < 10 /\ lookup pair_eqb (a, b) hex_coord_string_dict = Some s /\
  exists st plane, nth_error x_coords (Z.to_nat (s - 1)) = Some st /\ nth_error X_IC79_coords (Z.to_nat (a + 4)) = Some plane /\ nth_error plane (Z.to_nat (b + 5)) = Some st.
Proof.
  intros H. apply lookup_in in H; [| exact zeqb_spec]. pose proof grid_checked as G. unfold grid_checked_of in G.
  apply andb_prop in G. destruct G as (G & _). apply andb_prop in G. destruct G as (G & _). rewrite forallb_forall in G. specialize (G _ H). cbv beta iota in G. clear H.
  apply andb_prop in G. destruct G as (G & G8). apply andb_prop in G. destruct G as (G & G7).
  apply andb_prop in G. destruct G as (G & G6). apply andb_prop in G. destruct G as (G & G5).
  apply andb_prop in G. destruct G as (G & G4). apply andb_prop in G. destruct G as (G & G3). apply andb_prop in G. destruct G as (G1 & G2).
  apply Z.leb_le in G1, G2, G3, G5. apply Z.ltb_lt in G4, G6.
  split; [lia |]. split; [lia |]. split; [lia |]. split.
  - destruct (lookup pair_eqb (a, b) hex_coord_string_dict) as [s' |]; [| discriminate]. apply Z.eqb_eq in G7. congruence.
  - destruct (nth_error x_coords (Z.to_nat (s - 1))) as [st |]; [| discriminate]. destruct (nth_error X_IC79_coords (Z.to_nat (a + 4))) as [plane |]; [| discriminate].
    destruct (nth_error plane (Z.to_nat (b + 5))) as [cell |] eqn:E; [| discriminate]. exists st, plane. split; [reflexivity |]. split; [reflexivity |].
    unfold same_coords in G8. destruct (list_eq_dec _ st cell) as [-> |]; [exact E | discriminate].
Qed.

Lemma string_has_hex s : 1 <= s <= 78 -> exists a b, lookup Z.eqb s string_hex_coord_dict = Some (a, b).
Proof.
  intros H. pose proof grid_checked as G. unfold grid_checked_of in G. apply andb_prop in G. destruct G as (_ & G). rewrite forallb_forall in G.
  specialize (G (s - 1)). replace (s - 1 + 1) with s in G by lia.
  destruct (lookup Z.eqb s string_hex_coord_dict) as [(a, b) |]; [exists a, b; reflexivity |]. discriminate G. unfold range. apply in_map_iff.
  exists (Z.to_nat (s - 1)). split; [lia |]. apply in_seq. lia.
Qed.

Lemma get_z {A} (l : list A) i x : 0 <= i -> nth_error l (Z.to_nat i) = Some x -> get l i = Ok x.
Proof.
  intros H E. assert (L : (Z.to_nat i < length l)%nat) by (apply nth_error_Some; congruence). destruct (get_nth l (Z.to_nat i) L) as (y & F & G).
  rewrite Z2Nat.id in G by exact H. congruence.
Qed.

(** [get_dom_coords(string, dom)] for all integers: the coordinates of the DOM for the 78 strings of the regular grid, [KeyError] for the eight
    strings of DeepCore although they pass the assertions, [AssertionError] for all others. *)
Theorem C182_dom_coords string dom :
  (1 <= string <= 78 -> 1 <= dom <= 60 -> exists x y z, DomAt (Z.to_nat (string - 1)) (Z.to_nat (dom - 1)) x y z /\ get_dom_coords string dom = Ok [x; y; z]) /\
  (79 <= string <= 86 -> 1 <= dom <= 60 -> get_dom_coords string dom = Err KeyError) /\
  (~ (1 <= string <= 86 /\ 1 <= dom <= 60) -> get_dom_coords string dom = Err AssertionError).
Proof.
  unfold get_dom_coords. split; [| split].
  - intros HS HD. replace ((0 <? string) && (string <=? 86)) with true by (symmetry; apply andb_true_intro; split; [apply Z.ltb_lt | apply Z.leb_le]; lia).
    replace ((0 <? dom) && (dom <=? 60)) with true by (symmetry; apply andb_true_intro; split; [apply Z.ltb_lt | apply Z.leb_le]; lia). cbn [negb].
    destruct (string_has_hex string HS) as (a & b & E). destruct (grid_entry _ _ _ E) as (_ & A & B & _ & st & plane & E1 & E2 & E3).
    destruct (x_coords_at (Z.to_nat (string - 1)) (Z.to_nat (dom - 1)) ltac:(lia) ltac:(lia)) as (st' & x & y & z & F1 & F2 & _ & D).
    assert (st' = st) by congruence. subst st'. exists x, y, z. split; [exact D |].
    unfold get_matrix_indices. rewrite E. cbn [bind]. rewrite (get_z _ _ _ (proj1 A) E2). cbn [bind]. rewrite (get_z _ _ _ (proj1 B) E3). cbn [bind]. apply get_z; [lia | exact F2].
  - intros HS HD. replace ((0 <? string) && (string <=? 86)) with true by (symmetry; apply andb_true_intro; split; [apply Z.ltb_lt | apply Z.leb_le]; lia).
    replace ((0 <? dom) && (dom <=? 60)) with true by (symmetry; apply andb_true_intro; split; [apply Z.ltb_lt | apply Z.leb_le]; lia). cbn [negb].
    unfold get_matrix_indices. destruct (lookup Z.eqb string string_hex_coord_dict) as [(a, b) |] eqn:E; [| reflexivity]. destruct (grid_entry _ _ _ E) as (R & _). lia.
  - intros H. destruct ((0 <? string) && (string <=? 86)) eqn:E1; [| reflexivity]. cbn [negb]. destruct ((0 <? dom) && (dom <=? 60)) eqn:E2; [| reflexivity].
    destruct H. apply andb_prop in E1, E2. destruct E1 as (A & B), E2 as (C & D). apply Z.ltb_lt in A, C. apply Z.leb_le in B, D. lia.
Qed.

(** The documented ranges (strings from 1 to 86) are accepted but not served: the coordinates of those DOMs are in the table. *)
Theorem C182_documented_refuted : exists string dom,
  1 <= string <= 86 /\ 1 <= dom <= 60 /\ (exists x y z, DomAt (Z.to_nat (string - 1)) (Z.to_nat (dom - 1)) x y z) /\ get_dom_coords string dom = Err KeyError.
Proof.
  exists 86, 60. split; [lia |]. split; [lia |]. split; [| apply C182_dom_coords; lia].
  destruct (x_coords_at 85 59 ltac:(lia) ltac:(lia)) as (_ & x & y & z & _ & _ & _ & D). exists x, y, z. exact D.
Qed.

(** ** C183: strings on the square grid *)

(** The two dictionaries are inverse to each other. *)
Theorem C183_inverse s h : Entry string_hex_coord_dict s h <-> Entry hex_coord_string_dict h s.
Proof.
  unfold Entry. split; intros I.
  - apply (in_lookup Z.eqb zeqb_spec _ _ _ hex_keys) in I. destruct h as (a, b). destruct (grid_entry _ _ _ I) as (_ & _ & _ & E & _). apply (lookup_in _ pair_spec) in E. exact E.
  - pose proof grid_checked as G. unfold grid_checked_of in G. apply andb_prop in G. destruct G as (G & _). apply andb_prop in G. destruct G as (_ & G).
    rewrite forallb_forall in G. specialize (G _ I). cbv beta iota in G. destruct (lookup Z.eqb s string_hex_coord_dict) as [h' |] eqn:E; [| discriminate].
    apply pair_spec in G. subst h'. apply (lookup_in _ zeqb_spec) in E. exact E.
Qed.

(** Exactly the strings 1 to 78 have a place, inside the grid, and no two share one. *)
Theorem C183_places :
  (forall s, (1 <= s <= 78 -> exists a b, get_matrix_indices s = Ok (a, b) /\ 0 <= a < 10 /\ 0 <= b < 10) /\
             (~ 1 <= s <= 78 -> get_matrix_indices s = Err KeyError)) /\
  (forall s s' p, get_matrix_indices s = Ok p -> get_matrix_indices s' = Ok p -> s = s').
Proof.
  split.
  - intros s. unfold get_matrix_indices. split; intros H.
    + destruct (string_has_hex s H) as (a & b & E). rewrite E. destruct (grid_entry _ _ _ E) as (_ & A & B & _). exists (a + 4), (b + 5). auto.
    + destruct (lookup Z.eqb s string_hex_coord_dict) as [(a, b) |] eqn:E; [| reflexivity]. destruct (grid_entry _ _ _ E) as (R & _). destruct (H R).
  - intros s s' p. unfold get_matrix_indices. destruct (lookup Z.eqb s string_hex_coord_dict) as [(a, b) |] eqn:E; [| discriminate].
    destruct (lookup Z.eqb s' string_hex_coord_dict) as [(a', b') |] eqn:E'; [| discriminate]. intros H H'.
    assert (Q : a' = a /\ b' = b) by (rewrite <- H' in H; injection H as H1 H2; lia). destruct Q as (-> & ->).
    destruct (grid_entry _ _ _ E) as (_ & _ & _ & F & _). destruct (grid_entry _ _ _ E') as (_ & _ & _ & F' & _). congruence.
Qed.

Lemma has_string_iff a b : has_string string_hex_coord_dict a b = true <-> exists s, get_matrix_indices s = Ok (a, b).
Proof.
  unfold has_string, get_matrix_indices. rewrite existsb_exists. split.
  - intros ((s, (a', b')) & I & E). cbv beta iota in E. apply andb_prop in E. destruct E as (E1 & E2). apply Z.eqb_eq in E1, E2. exists s.
    rewrite (in_lookup Z.eqb zeqb_spec _ _ _ hex_keys I). congruence.
  - intros (s & H). destruct (lookup Z.eqb s string_hex_coord_dict) as [(a', b') |] eqn:E; [| discriminate]. injection H as <- <-.
    exists (s, (a', b')). split; [apply (lookup_in _ zeqb_spec), E |]. rewrite !Z.eqb_refl. reflexivity.
Qed.

(** The mask of real DOMs is true at the places of the strings and nowhere else, for all 60 DOMs. *)
Theorem C183_mask a b d : (a < 10)%nat -> (b < 10)%nat -> (d < 60)%nat ->
  exists mask plane cell m, IC79_real_DOMs_mask = Ok mask /\ nth_error mask a = Some plane /\ nth_error plane b = Some cell /\ nth_error cell d = Some m /\
    (m = true <-> exists s, get_matrix_indices s = Ok (Z.of_nat a, Z.of_nat b)).
Proof.
  intros Ha Hb Hd. rewrite mask_value. do 4 eexists. split; [reflexivity |].
  rewrite nth_error_map, nth_error_seq' by exact Ha. split; [reflexivity |]. rewrite nth_error_map, nth_error_seq' by exact Hb. split; [reflexivity |].
  split; [rewrite nth_error_nth' with (d := has_string string_hex_coord_dict (Z.of_nat a) (Z.of_nat b)) by (rewrite repeat_length; exact Hd); rewrite nth_repeat; reflexivity |].
  apply has_string_iff.
Qed.

(** The coordinates on the grid are those of the string at that place, and zero where there is none. *)
Theorem C183_coordinates a b d x y z : CellAt a b d x y z ->
  (forall s, get_matrix_indices s = Ok (Z.of_nat a, Z.of_nat b) -> DomAt (Z.to_nat (s - 1)) d x y z) /\
  ((forall s, get_matrix_indices s <> Ok (Z.of_nat a, Z.of_nat b)) -> x = 0 /\ y = 0 /\ z = 0).
Proof.
  intros D. pose proof D as (Ha & Hb & Hd & _). destruct (grid_at a b d Ha Hb Hd) as (plane & cell & x' & y' & z' & E1 & E2 & E3 & _ & _ & D').
  destruct (cellat_unique _ _ _ _ _ _ _ _ _ D D') as (<- & <- & <-). split.
  - intros s H. unfold get_matrix_indices in H. destruct (lookup Z.eqb s string_hex_coord_dict) as [(a', b') |] eqn:E; [| discriminate]. injection H as A B.
    destruct (grid_entry _ _ _ E) as (R & _ & _ & _ & st & plane' & F1 & F2 & F3). rewrite A, Nat2Z.id in F2. rewrite B, Nat2Z.id in F3.
    assert (plane' = plane) by congruence. subst plane'. assert (st = cell) by congruence. subst st.
    destruct (x_coords_at (Z.to_nat (s - 1)) d ltac:(lia) Hd) as (st' & x' & y' & z' & G1 & G2 & _ & DD). assert (st' = cell) by congruence. subst st'.
    assert (Q : [x'; y'; z'] = [x; y; z]) by congruence. injection Q as -> -> ->. exact DD.
  - intros N. pose proof empty_checked as G. unfold empty_checked_of in G. rewrite forallb_forall in G. specialize (G a ltac:(apply in_seq; lia)).
    rewrite forallb_forall in G. specialize (G b ltac:(apply in_seq; lia)). destruct (has_string string_hex_coord_dict (Z.of_nat a) (Z.of_nat b)) eqn:HS.
    + apply has_string_iff in HS. destruct HS as (s & HS). destruct (N s HS).
    + cbn [orb] in G. rewrite E1, E2 in G. rewrite forallb_forall in G. apply nth_error_In in E3. specialize (G _ E3). cbn [forallb] in G.
      apply andb_prop in G. destruct G as (G1 & G). apply andb_prop in G. destruct G as (G2 & G). apply andb_prop in G. destruct G as (G3 & _).
      apply Z.eqb_eq in G1, G2, G3. auto.
Qed.

(** ** C184: DOMs from rounded coordinates *)

(** The dictionary gives for each DOM that DOM, at its coordinates rounded to metres, and has no other keys. *)
Theorem C184_dictionary : exists d, dom_coord_dict = Ok d /\ forall i j k (p : Z * Z),
  lookup triple_eqb (i, j, k) d = Some p <->
  exists s om x y z, p = (Z.of_nat s, Z.of_nat om) /\ DomAt s om x y z /\ Rounded x i /\ Rounded y j /\ Rounded z k.
Proof.
  eexists. split; [exact dict_filled |]. intros i j k p. rewrite (filled triple_eqb triple_spec (key_of x_coords) (fun p => p) doms keys_nodup). split.
  - destruct (find _ doms) as [q |] eqn:F; [| discriminate]. intros E. injection E as ->. apply find_some in F. destruct F as (I & E). apply triple_spec in E.
    apply in_doms in I. destruct I as (s & om & Hs & Ho & ->). destruct (x_coords_at s om Hs Ho) as (_ & x & y & z & _ & _ & _ & D).
    exists s, om, x, y, z. split; [reflexivity |]. split; [exact D |]. destruct (rounded_at _ _ _ _ _ D) as (_ & K). rewrite K in E. injection E as -> -> ->.
    split; [| split]; apply np_round_iff; reflexivity.
  - intros (s & om & x & y & z & -> & D & R1 & R2 & R3). apply np_round_iff in R1, R2, R3. destruct (rounded_at _ _ _ _ _ D) as (_ & K).
    rewrite R1, R2, R3 in K. pose proof D as (Hs & Ho & _). assert (I : In (Z.of_nat s, Z.of_nat om) doms) by (apply in_doms; exists s, om; auto).
    destruct (find (fun x => triple_eqb (i, j, k) (key_of x_coords x)) doms) as [q |] eqn:F.
    + f_equal. apply find_some in F. destruct F as (I' & E). apply triple_spec in E. pose proof keys_nodup as ND. revert I I' K E ND.
      generalize (key_of x_coords) as f. generalize (Z.of_nat s, Z.of_nat om) as p. generalize doms as l. clear. intros l p f I I' K E ND.
      induction l as [| e l IH]; [destruct I |]. inversion ND as [| ? ? N ND']; subst. destruct I as [-> | I], I' as [-> | I'].
      * reflexivity.
      * destruct N. rewrite K, E. apply in_map, I'.
      * destruct N. rewrite <- E, <- K. apply in_map, I.
      * apply IH; assumption.
    + apply (find_none _ _ F) in I. cbv beta in I. rewrite K in I. rewrite (proj2 (triple_spec _ _) eq_refl) in I. discriminate.
Qed.

(** No two DOMs have the same coordinates, even when rounded. *)
Theorem C184_distinct s om x y z s' om' x' y' z' : DomAt s om x y z -> DomAt s' om' x' y' z' ->
  (exists i j k, (Rounded x i /\ Rounded y j /\ Rounded z k) /\ (Rounded x' i /\ Rounded y' j /\ Rounded z' k)) -> s = s' /\ om = om'.
Proof.
  intros D D' (i & j & k & (R1 & R2 & R3) & R1' & R2' & R3'). destruct C184_dictionary as (d & _ & H).
  assert (E : lookup triple_eqb (i, j, k) d = Some (Z.of_nat s, Z.of_nat om)) by (apply H; exists s, om, x, y, z; auto).
  assert (E' : lookup triple_eqb (i, j, k) d = Some (Z.of_nat s', Z.of_nat om')) by (apply H; exists s', om', x', y', z'; auto).
  rewrite E in E'. injection E' as A B. lia.
Qed.

(** ** C185: efficiencies and the mask of bad DOMs *)

Lemma at_map {A B} (f : A -> B) t s om y : At (map (map f) t) s om y <-> exists x, At t s om x /\ y = f x.
Proof.
  unfold At. split.
  - intros (row & E1 & E2). rewrite nth_error_map in E1. destruct (nth_error t s) as [r |] eqn:E; [| discriminate]. cbn [option_map] in E1. injection E1 as <-.
    rewrite nth_error_map in E2. destruct (nth_error r om) as [x |] eqn:F; [| discriminate]. cbn [option_map] in E2. injection E2 as <-. exists x. split; [exists r; auto | reflexivity].
  - intros (x & (r & E1 & E2) & ->). exists (map f r). rewrite !nth_error_map, E1, E2. split; reflexivity.
Qed.

Lemma at_unique {A} (t : list (list A)) s om x y : At t s om x -> At t s om y -> x = y.
Proof. intros (r & A1 & A2) (r' & B1 & B2). assert (r' = r) by congruence. subst. congruence. Qed.

(** Each of the 86 x 60 DOMs has efficiency 1 or 1.35; the table without bad DOMs has the same number, or zero exactly where the mask is false. *)
Theorem C185_efficiencies s om : (s < 86)%nat -> (om < 60)%nat ->
  exists e g m, At rel_dom_eff s om e /\ At rel_dom_eff_without_bad_doms s om g /\ At bad_doms_mask s om m /\
    (e = 100 \/ e = 135) /\ (m = true -> g = e) /\ (m = false -> g = 0).
Proof.
  intros Hs Ho. destruct (table_at _ _ _ efficiencies s om Hs Ho) as (e & g & E & G & T). apply andb_prop in T. destruct T as (T1 & T2).
  exists e, g, (negb (g =? 0)). split; [exact E |]. split; [exact G |]. split; [apply at_map; exists g; auto |].
  apply Bool.orb_true_iff in T1, T2. rewrite !Z.eqb_eq in T1, T2. split; [exact T1 |]. destruct (Z.eqb_spec g 0) as [-> | N]; cbn [negb].
  - split; [discriminate | reflexivity].
  - split; [intros _; destruct T2; [assumption | contradiction] | discriminate].
Qed.

(** The tables have no other entries. *)
Theorem C185_shapes s om e g m :
  (At rel_dom_eff s om e -> (s < 86)%nat /\ (om < 60)%nat) /\ (At rel_dom_eff_without_bad_doms s om g -> (s < 86)%nat /\ (om < 60)%nat) /\
  (At bad_doms_mask s om m -> (s < 86)%nat /\ (om < 60)%nat).
Proof.
  assert (L : forall A (t : list (list A)) x, (length t =? 86)%nat = true -> forallb (fun r => (length r =? 60)%nat) t = true -> At t s om x -> (s < 86)%nat /\ (om < 60)%nat).
  { intros A t x L F (r & E1 & E2). apply Nat.eqb_eq in L. rewrite forallb_forall in F. specialize (F r (nth_error_In _ _ E1)). apply Nat.eqb_eq in F.
    split; [rewrite <- L; apply nth_error_Some; congruence | rewrite <- F; apply nth_error_Some; congruence]. }
  split; [| split]; apply L; vm_compute; reflexivity.
Qed.

(** 77 DOMs are masked out. *)
Theorem C185_bad_doms : length (filter negb (concat bad_doms_mask)) = 77%nat.
Proof. vm_compute. reflexivity. Qed.

(** ** C186: noise rates *)

(** The dictionary names each DOM at most once, so that the order of its entries does not matter. *)
Theorem C186_dictionary k v v' : Entry dom_noise_rate_dict k v -> Entry dom_noise_rate_dict k v' -> v = v'.
Proof.
  unfold Entry. intros I I'. apply (in_lookup pair_eqb pair_spec _ _ _ noise_keys) in I, I'. congruence.
Qed.

(** The rate of a DOM is that of the dictionary (whose strings and DOMs count from one); DOMs it does not name and those whose rate is not a number get zero. *)
Theorem C186_rates s om r : At dom_noise_rates s om r <->
  (s < 86)%nat /\ (om < 60)%nat /\
  (let k := (Z.of_nat s + 1, Z.of_nat om + 1) in
   Entry dom_noise_rate_dict k (Some r) \/ Entry dom_noise_rate_dict k None /\ r = 0 \/ (forall v, ~ Entry dom_noise_rate_dict k v) /\ r = 0).
Proof.
  rewrite dom_noise_rates_at. unfold Entry. cbv zeta. rewrite noise_rate_value. set (k := (Z.of_nat s + 1, Z.of_nat om + 1)). split.
  - intros (Hs & Ho & ->). split; [exact Hs |]. split; [exact Ho |]. destruct (lookup pair_eqb k dom_noise_rate_dict) as [[v |] |] eqn:E; cbn [value].
    + left. apply (lookup_in _ pair_spec) in E. exact E.
    + right. left. apply (lookup_in _ pair_spec) in E. auto.
    + right. right. split; [| reflexivity]. intros v I. apply (in_lookup pair_eqb pair_spec _ _ _ noise_keys) in I. rewrite E in I. discriminate.
  - intros (Hs & Ho & H). split; [exact Hs |]. split; [exact Ho |]. destruct H as [I | [(I & ->) | (N & ->)]].
    + rewrite (in_lookup pair_eqb pair_spec _ _ _ noise_keys I). reflexivity.
    + rewrite (in_lookup pair_eqb pair_spec _ _ _ noise_keys I). reflexivity.
    + rewrite (lookup_none pair_eqb pair_spec _ _ N). reflexivity.
Qed.

(** No rate is negative, masked DOMs have rate zero, and of the DOMs in use exactly two have rate zero: DOM 6 of string 33 and DOM 19 of string 45. *)
Theorem C186_zero s om r m : At dom_noise_rates s om r -> At bad_doms_mask s om m ->
  0 <= r /\ (r = 0 <-> m = false \/ (s = 32%nat /\ om = 5%nat) \/ (s = 44%nat /\ om = 18%nat)).
Proof.
  intros R M. apply dom_noise_rates_at in R. destruct R as (Hs & Ho & ->). destruct (rates_at s om Hs Ho) as (m' & M' & P & Z0 & _).
  rewrite (at_unique _ _ _ _ _ M M'). split; [exact P |]. rewrite Z0. unfold silent. rewrite Bool.orb_true_iff, !Bool.andb_true_iff, !Nat.eqb_eq. reflexivity.
Qed.

(** Some DOMs that are in use have no noise. *)
Theorem C186_noise_refuted : exists s om e, At bad_doms_mask s om true /\ At rel_dom_eff_without_bad_doms s om e /\ 0 < e /\ At dom_noise_rates s om 0.
Proof.
  destruct (C185_efficiencies 32 5 ltac:(lia) ltac:(lia)) as (e & g & m & _ & G & M & V & T & F).
  destruct (rates_at 32 5 ltac:(lia) ltac:(lia)) as (m' & M' & _ & Z0 & S). pose proof (at_unique _ _ _ _ _ M M'). subst m'. rewrite (S eq_refl) in *. clear S.
  exists 32%nat, 5%nat, g. split; [exact M |]. split; [exact G |]. split; [rewrite (T eq_refl); lia |]. apply dom_noise_rates_at. split; [lia |]. split; [lia |]. symmetry. apply Z0. right. reflexivity.
Qed.

(** For the model of the noise this means: at such a DOM, and at the masked ones, the expected charge is 1e-7 for every time window and all weights,
    whatever is excluded; at all others it is larger. *)
Definition rates_of (rates : list (list Z)) (c : nat * nat) : R := (IZR (nth (snd c) (nth (fst c) rates []) 0%Z) / IZR (10 ^ 26))%R.

Lemma rates_of_at rates s om r : At rates s om r -> rates_of rates (s, om) = (IZR r / IZR (10 ^ 26))%R.
Proof. intros (row & E1 & E2). unfold rates_of. cbn [fst snd]. rewrite (nth_error_nth _ _ _ E1), (nth_error_nth _ _ _ E2). reflexivity. Qed.

Lemma bind_ok {A B} (r : result A) (f : A -> result B) y : bind r f = Ok y -> exists x, r = Ok x /\ f x = Ok y.
Proof. destruct r; cbn; [intros H; exists a; auto | discriminate]. Qed.

Theorem C186_expected w0 w1 windows exclusions ids out s om r :
  noise_get_tensors (rates_of dom_noise_rates) w0 w1 windows exclusions ids = Ok out -> At dom_noise_rates s om r ->
  (r = 0 -> forall e, n_charges out e (s, om) = (1 / 10000000)%R) /\
  (r <> 0 -> exclusions = None -> forall e, (0 < livetime (nth e windows (0, 0)))%R -> (1 / 10000000 < n_charges out e (s, om))%R).
Proof.
  intros H R. pose proof (rates_of_at _ _ _ _ R) as Q. assert (P : 0 <= r).
  { pose proof R as R'. apply dom_noise_rates_at in R'. destruct R' as (Hs & Ho & ->). destruct (rates_at s om Hs Ho) as (m & _ & P & _). exact P. }
  revert H Q. generalize (rates_of dom_noise_rates) as f. clear R. intros f H Q. unfold noise_get_tensors in H.
  apply bind_ok in H. destruct H as (excl & X & H). cbv zeta in H. apply bind_ok in H. destruct H as (pdf & _ & H). injection H as <-. cbn [n_charges].
  split.
  - intros -> e. rewrite Q. destruct excl; unfold Rdiv; ring.
  - intros N -> e L. injection X as <-. cbv zeta. rewrite Q. assert (W : (0 < mean_scaling w0)%R).
    { assert (EL : forall x, (-1 < elu x)%R) by exact elu_lower. pose proof (EL w0). pose proof (EL (elu w0 + 101 / 100)%R). unfold mean_scaling. cbv zeta. lra. }
    assert (I : (0 < IZR r / IZR (10 ^ 26))%R) by (apply Rdiv_lt_0_compat; apply (IZR_lt 0); lia).
    pose proof (Rmult_lt_0_compat _ _ (Rmult_lt_0_compat _ _ I L) W). lra.
Qed.

(** ** Examples *)

(** DOM 30 of string 36, in the middle of the detector, and its place on the grid *)
Example C182_dom_coords_meets : get_dom_coords 36 30 = Ok [4629; -3488; 737] /\ DomAt 35 29 4629 (-3488) 737 /\ get_dom_coords 79 1 = Err KeyError /\ get_dom_coords 0 61 = Err AssertionError.
Proof. split; [vm_compute; reflexivity |]. split; [| split; vm_compute; reflexivity]. unfold DomAt. cbv zeta. repeat split; try lia; vm_compute; reflexivity. Qed.
Example C183_places_meets : get_matrix_indices 36 = Ok (4, 5) /\ Entry string_hex_coord_dict 36 (0, 0) /\ CellAt 4 5 29 4629 (-3488) 737.
Proof.
  split; [vm_compute; reflexivity |]. split; [apply (lookup_in Z.eqb zeqb_spec); vm_compute; reflexivity |]. unfold CellAt. cbv zeta. repeat split; try lia; vm_compute; reflexivity.
Qed.
(** A corner of the grid without a string *)
Example C183_empty_meets : (forall s, get_matrix_indices s <> Ok (0, 0)) /\ CellAt 0 0 0 0 0 0.
Proof.
  split; [| unfold CellAt; cbv zeta; repeat split; try lia; vm_compute; reflexivity]. intros s H.
  assert (E : has_string string_hex_coord_dict 0 0 = true) by (apply has_string_iff; exists s; exact H). vm_compute in E. discriminate.
Qed.
Example C184_dictionary_meets : Rounded 4629 46 /\ Rounded (-3488) (-35) /\ Rounded 737 7 /\ Rounded 250 2 /\ Rounded 350 4 /\ ~ Rounded 250 3.
Proof. repeat split; try (apply np_round_iff; reflexivity). intros H. apply np_round_iff in H. discriminate. Qed.
Example C186_zero_meets : At bad_doms_mask 32 5 true /\ At dom_noise_rates 32 5 0 /\ Entry dom_noise_rate_dict (33, 6) None /\
  exists r, At dom_noise_rates 0 0 r /\ r = 55840600585937510000.
Proof.
  assert (L : forall s om l, nth_error dom_noise_rate_lines s = Some l -> (s < 86)%nat ->
    noise_rate (Z.of_nat s + 1) om = value (lookup pair_eqb (Z.of_nat s + 1, om) l)).
  { intros s om l E Hs. destruct (lookup_line s om Hs) as (l' & E' & V). rewrite noise_rate_value, V. congruence. }
  split; [eexists; split; vm_compute; reflexivity |]. split; [| split].
  - apply dom_noise_rates_at. split; [lia |]. split; [lia |]. destruct (nth_error dom_noise_rate_lines 32) as [l |] eqn:E; [| vm_compute in E; discriminate].
    rewrite (L _ _ _ E) by lia. vm_compute in E. injection E as <-. vm_compute. reflexivity.
  - apply (lookup_in pair_eqb pair_spec). destruct (lookup_line 32 6 ltac:(lia)) as (l & E & V). change (Z.of_nat 32 + 1) with 33 in V. rewrite V. vm_compute in E. injection E as <-. vm_compute. reflexivity.
  - eexists. split; [| reflexivity]. apply dom_noise_rates_at. split; [lia |]. split; [lia |]. destruct (nth_error dom_noise_rate_lines 0) as [l |] eqn:E; [| vm_compute in E; discriminate].
    rewrite (L _ _ _ E) by lia. vm_compute in E. injection E as <-. vm_compute. reflexivity.
Qed.
Example C186_expected_meets : exists out, noise_get_tensors (rates_of dom_noise_rates) 0 0 [(0, 1000)%R] None [] = Ok out /\ (0 < livetime (nth 0 [(0, 1000)] (0, 0)))%R.
Proof. eexists. split; [reflexivity |]. unfold livetime. cbn. lra. Qed.
Print Assumptions C182_shapes.
Print Assumptions C182_dom_coords.
Print Assumptions C182_documented_refuted.
Print Assumptions C183_inverse.
Print Assumptions C183_places.
Print Assumptions C183_mask.
Print Assumptions C183_coordinates.
Print Assumptions C184_dictionary.
Print Assumptions C184_distinct.
Print Assumptions C185_efficiencies.
Print Assumptions C185_shapes.
Print Assumptions C185_bad_doms.
Print Assumptions C186_dictionary.
Print Assumptions C186_rates.
Print Assumptions C186_zero.
Print Assumptions C186_noise_refuted.
Print Assumptions C186_expected.
