(** Specification for C195: what a second attempt to load into the same object
    should leave behind.  It speaks about the state of the object only. *)
From Verif Require Import Py M_Config M_Component.

(** Nothing of the object but its sub-components differs. *)
Definition SameButSubs (a b : component) : Prop :=
  k_class a = k_class b /\ k_untracked a = k_untracked b /\
  k_configured a = k_configured b /\ k_conf a = k_conf b /\ k_data a = k_data b.

(** [b] has the sub-components of [a] and, under names which [a] does not use,
    those of [left]. *)
Definition Overlaid (left a b : list (string * component)) : Prop :=
  forall n, dget n b = match dget n a with Some c => Some c | None => dget n left end.

(** The names [done] have been taken out of [m], of the others at most [next]. *)
Definition TakenOut (done : list string) (next : option string) (m m' : mods) : Prop :=
  (forall k, In k done -> dget k m' = None) /\
  (forall k, ~ In k done -> dget k m' = dget k m \/ dget k m' = None /\ next = Some k).
