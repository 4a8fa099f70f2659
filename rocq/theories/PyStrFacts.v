From Coq Require Import DecimalString DecimalNat DecimalFacts Decimal.
From Verif Require Import Py PyStr.

Fixpoint d0s (k : nat) (u : uint) : uint :=
  match k with 0 => u | S k' => D0 (d0s k' u) end.

Lemma uint_of_string_zeros k s u : NilEmpty.uint_of_string s = Some u ->
  NilEmpty.uint_of_string (zeros k ++ s)%string = Some (d0s k u).
Proof. intros H. induction k as [|k IH]; simpl; [exact H|]. rewrite IH. reflexivity. Qed.

Lemma of_uint_d0s k u : Nat.of_uint (d0s k u) = Nat.of_uint u.
Proof. induction k as [|k IH]; simpl; [reflexivity|exact IH]. Qed.

Lemma fmt04_inj n m : fmt04 n = fmt04 m -> n = m.
Proof.
  unfold fmt04, str_of_nat. intros H.
  pose proof (uint_of_string_zeros (4 - String.length (NilEmpty.string_of_uint (Nat.to_uint n))) _ _
    (NilEmpty.usu (Nat.to_uint n))) as H1.
  pose proof (uint_of_string_zeros (4 - String.length (NilEmpty.string_of_uint (Nat.to_uint m))) _ _
    (NilEmpty.usu (Nat.to_uint m))) as H2.
  rewrite H in H1. rewrite H1 in H2. inversion H2 as [H3].
  apply (f_equal Nat.of_uint) in H3. rewrite !of_uint_d0s, !DecimalNat.Unsigned.of_to in H3. exact H3.
Qed.

Lemma append_inj_l a b c : (a ++ b)%string = (a ++ c)%string -> b = c.
Proof. induction a as [|x a IH]; simpl; intros H; [exact H|]. inversion H. auto. Qed.

Lemma append_assoc a b c : ((a ++ b) ++ c)%string = (a ++ (b ++ c))%string.
Proof. induction a as [|x a IH]; simpl; [reflexivity|]. rewrite IH; reflexivity. Qed.

Lemma append_nil_r a : (a ++ "")%string = a.
Proof. induction a as [|x a IH]; simpl; [reflexivity|]. rewrite IH; reflexivity. Qed.

Lemma before_last_dot_app base ext : before_last_dot ext = None ->
  before_last_dot (base ++ String "." ext)%string = Some base.
Proof.
  intros H. induction base as [|c base IH]; simpl.
  - rewrite H. reflexivity.
  - rewrite IH. reflexivity.
Qed.

Lemma splitext_root_ext base ext : has_non_dot base = true -> before_last_dot ext = None ->
  splitext_root (base ++ String "." ext)%string = base.
Proof. intros H1 H2. unfold splitext_root. rewrite before_last_dot_app by exact H2. rewrite H1. reflexivity. Qed.

Lemma splitext_root_nodot s : before_last_dot s = None -> splitext_root s = s.
Proof. unfold splitext_root. intros ->. reflexivity. Qed.

Lemma before_last_dot_inv s b : before_last_dot s = Some b ->
  exists e, s = (b ++ String "." e)%string /\ before_last_dot e = None.
Proof.
  revert b. induction s as [|c s IH]; simpl; intros b H; [discriminate|].
  destruct (before_last_dot s) as [p|] eqn:E.
  - inversion H; subst. destruct (IH p eq_refl) as [e [-> He]]. exists e. split; [reflexivity|exact He].
  - destruct (Ascii.eqb c ".") eqn:Ec; [|discriminate]. inversion H; subst.
    apply Ascii.eqb_eq in Ec. subst. exists s. split; [reflexivity|exact E].
Qed.

Lemma splitext_path_snoc p s : splitext_path (p ++ [s]) = p ++ [splitext_root s].
Proof.
  induction p as [|x p IH]; [reflexivity|]. simpl. destruct (p ++ [s]) eqn:E.
  - destruct p; discriminate.
  - rewrite IH. reflexivity.
Qed.
