(** Shared Python vocabulary used by all models: exceptions as values,
    insertion-ordered dictionaries, and plain data values with the Python
    equality [==].  This file models the Python language, not the repository;
    the models of the repository are the [M_*.v] files. *)
From Coq Require Export String Ascii Arith ZArith Lia Bool List Permutation.
From Coq Require Import Sorting.Sorted.
Export ListNotations.
Open Scope string_scope.
Open Scope list_scope.
Open Scope bool_scope.

(** ** Exceptions as values *)

Inductive exn :=
| KeyError | ValueError | TypeError | AttributeError | IOError | IndexError
| NotImplementedError | AssertionError | NameError | ZeroDivisionError
| RecursionError | StopIteration | UnboundLocalError | RuntimeError.

Inductive result (A : Type) :=
| Ok (a : A)
| Err (e : exn).
Arguments Ok {A} a.
Arguments Err {A} e.

Definition bind {A B} (r : result A) (f : A -> result B) : result B :=
  match r with Ok a => f a | Err e => Err e end.

Definition is_ok {A} (r : result A) : bool :=
  match r with Ok _ => true | Err _ => false end.

Declare Scope py_scope.
Delimit Scope py_scope with py.
Notation "x <- e ;; f" := (bind e (fun x => f))
  (at level 61, e at next level, right associativity) : py_scope.

(** ** Dictionaries: association lists in insertion order *)

Definition dict (A : Type) := list (string * A).

Fixpoint dget {A} (k : string) (d : dict A) : option A :=
  match d with
  | [] => None
  | (k', v) :: d' => if String.eqb k k' then Some v else dget k d'
  end.

Definition dmem {A} (k : string) (d : dict A) : bool :=
  match dget k d with Some _ => true | None => false end.

Definition dkeys {A} (d : dict A) : list string := map fst d.

(** [d[k] = v]: an existing key keeps its position. *)
Fixpoint dset {A} (k : string) (v : A) (d : dict A) : dict A :=
  match d with
  | [] => [(k, v)]
  | (k', v') :: d' =>
      if String.eqb k k' then (k', v) :: d' else (k', v') :: dset k v d'
  end.

(** [d.update(e)] *)
Definition dupdate {A} (d e : dict A) : dict A :=
  fold_left (fun acc kv => dset (fst kv) (snd kv) acc) e d.

(** [d.pop(k)] without the returned value / [del d[k]] *)
Fixpoint ddel {A} (k : string) (d : dict A) : dict A :=
  match d with
  | [] => []
  | (k', v) :: d' => if String.eqb k k' then d' else (k', v) :: ddel k d'
  end.

(** Every Python dictionary has pairwise different keys. *)
Definition dwf {A} (d : dict A) : Prop := NoDup (dkeys d).

Definition smem (s : string) (l : list string) : bool :=
  existsb (String.eqb s) l.

(** Two lists of strings contain the same set of strings
    ([set(a) == set(b)]). *)
Definition same_names (a b : list string) : bool :=
  forallb (fun x => smem x b) a && forallb (fun x => smem x a) b.

(** ** Values: the plain data stored in configurations.  Floating point
    numbers are represented by integers (only equality matters). *)

Inductive value :=
| VNone
| VBool (b : bool)
| VInt (z : Z)
| VStr (s : string)
| VList (l : list value)
| VTuple (l : list value)
| VDict (d : list (string * value)).

(** Python treats [True == 1] and [False == 0] as equal. *)
Definition numeric (v : value) : option Z :=
  match v with
  | VBool true => Some 1%Z
  | VBool false => Some 0%Z
  | VInt z => Some z
  | _ => None
  end.

Fixpoint list_eqb {A B} (eqb : A -> B -> bool) (a : list A) (b : list B)
  : bool :=
  match a, b with
  | [], [] => true
  | x :: a', y :: b' => eqb x y && list_eqb eqb a' b'
  | _, _ => false
  end.

(** Python [==] on plain data; dictionaries are compared as maps, ignoring
    the order of insertion. *)
Fixpoint veqb (v w : value) {struct v} : bool :=
  match v, w with
  | VNone, VNone => true
  | VStr s, VStr t => String.eqb s t
  | VList l, VList m =>
      (fix go (l m : list value) : bool :=
         match l, m with
         | [], [] => true
         | x :: l', y :: m' => veqb x y && go l' m'
         | _, _ => false
         end) l m
  | VTuple l, VTuple m =>
      (fix go (l m : list value) : bool :=
         match l, m with
         | [], [] => true
         | x :: l', y :: m' => veqb x y && go l' m'
         | _, _ => false
         end) l m
  | VDict d, VDict e =>
      Nat.eqb (length d) (length e) &&
      (fix go (d : list (string * value)) : bool :=
         match d with
         | [] => true
         | (k, x) :: d' =>
             match dget k e with
             | Some y => veqb x y && go d'
             | None => false
             end
         end) d
  | _, _ =>
      match numeric v, numeric w with
      | Some a, Some b => Z.eqb a b
      | _, _ => false
      end
  end.

(** Python [==] on dictionaries of plain data. *)
Definition deqb (d e : dict value) : bool :=
  Nat.eqb (length d) (length e) &&
  forallb (fun kv => match dget (fst kv) e with
                     | Some y => veqb (snd kv) y
                     | None => false
                     end) d.

(** Values whose dictionaries have pairwise different keys at every level:
    the only ones which exist in Python. *)
Inductive vwf : value -> Prop :=
| vwf_none : vwf VNone
| vwf_bool b : vwf (VBool b)
| vwf_int z : vwf (VInt z)
| vwf_str s : vwf (VStr s)
| vwf_list l : Forall vwf l -> vwf (VList l)
| vwf_tuple l : Forall vwf l -> vwf (VTuple l)
| vwf_dict d : dwf d -> Forall (fun kv => vwf (snd kv)) d -> vwf (VDict d).

Definition dvwf (d : dict value) : Prop :=
  dwf d /\ Forall (fun kv => vwf (snd kv)) d.
