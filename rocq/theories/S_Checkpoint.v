(** Specification for checkpoints: histories of saves and which checkpoints
    should survive. *)
From Verif Require Import Py M_Checkpoint.

Section Spec.
Variable W : Type.
Variable data_first : nat -> bool.

(** Arguments of one save. *)
Record entry := { e_prot : bool; e_keep : Z; e_desc : option string;
                  e_training : option (list (string * option exn)); e_steps : option nat; e_w : W }.

(** All saves so far, oldest first; a save that raises is not an entry, but
    leaves its effect on the directory. *)
Inductive Hist : list entry -> dir W -> Prop :=
  | h_empty : Hist [] empty_dir
  | h_save h d e ops : Hist h d ->
      save data_first d true (e_keep e) (e_prot e) (e_desc e) (e_training e) (e_steps e) (e_w e) = (ops, None) ->
      Hist (h ++ [e]) (run ops d)
  | h_fail h d e ok ops ex : Hist h d ->
      save data_first d ok (e_keep e) (e_prot e) (e_desc e) (e_training e) (e_steps e) (e_w e) = (ops, Some ex) ->
      Hist h (run ops d).

(** Checkpoint number [n] (counting from one). *)
Definition number (h : list entry) (n : nat) (e : entry) : Prop := exists k, n = S k /\ nth_error h k = Some e.

(** Number of unprotected checkpoints after number [n]. *)
Definition unprotected (h : list entry) (n : nat) : bool :=
  match n with O => false | S k => match nth_error h k with Some e => negb (e_prot e) | None => false end end.
Definition later (h : list entry) (n : nat) : nat :=
  length (filter (fun k => unprotected h k && Nat.ltb n k) (seq 1 (length h))).

(** At every unprotected save since with a positive limit, fewer than that many
    unprotected checkpoints were newer. *)
Definition Survives (h : list entry) (n : nat) : Prop :=
  unprotected h n = true /\
  forall h1 e h2, h = h1 ++ e :: h2 -> n <= S (length h1) -> e_prot e = false -> (0 < e_keep e)%Z ->
    (Z.of_nat (later (h1 ++ [e]) n) < e_keep e)%Z.

(** Present in the directory with the given weights. *)
Definition Stored (d : dir W) (n : nat) (w : W) : Prop := d_index d n = true /\ d_data d n = Some w.
Definition Absent (d : dir W) (n : nat) : Prop := d_index d n = false /\ d_data d n = None.

(** Everything that later saves, complete or interrupted, can make of a
    directory. *)
Inductive Later (d : dir W) : dir W -> Prop :=
  | l_here : Later d d
  | l_save d' e ok p q ex : Later d d' ->
      save data_first d' ok (e_keep e) (e_prot e) (e_desc e) (e_training e) (e_steps e) (e_w e) = (p ++ q, ex) ->
      Later d (run p d').

(** Listed in the records. *)
Definition Recorded (d : dir W) (n : nat) : Prop :=
  exists m, d_yaml d = Some (Some m) /\ (In n (map fst (m_unprot m)) \/ In n (map fst (m_prot m))).

(** A file of checkpoint [n] was removed. *)
Definition Touched (p : list (op W)) (n : nat) : Prop := In (RemoveData n) p \/ In (RemoveIndex n) p.

(** Saves of which [k] recorded training settings, all of whose components were
    saved without error; the rest of such a save may have raised. *)
Inductive THist : nat -> dir W -> Prop :=
  | th_empty : THist 0 empty_dir
  | th_new k d e ok ops ex cs : THist k d -> e_training e = Some cs -> (forall c, In c cs -> snd c = None) ->
      save data_first d ok (e_keep e) (e_prot e) (e_desc e) (e_training e) (e_steps e) (e_w e) = (ops, ex) ->
      THist (S k) (run ops d)
  | th_same k d e ok ops ex : THist k d -> e_training e = None ->
      save data_first d ok (e_keep e) (e_prot e) (e_desc e) (e_training e) (e_steps e) (e_w e) = (ops, ex) ->
      THist k (run ops d).

End Spec.

Arguments e_prot {W} e.
Arguments e_keep {W} e.
Arguments e_desc {W} e.
Arguments e_training {W} e.
Arguments e_steps {W} e.
Arguments e_w {W} e.
Arguments number {W} h n e.
Arguments unprotected {W} h n.
Arguments later {W} h n.
Arguments Survives {W} h n.
Arguments Stored {W} d n w.
Arguments Absent {W} d n.
Arguments Hist {W} data_first h d.
Arguments Later {W} data_first d _.
Arguments Recorded {W} d n.
Arguments Touched {W} p n.
Arguments THist {W} data_first _ _.
