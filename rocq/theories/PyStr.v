(** Python string helpers: decimal formatting and [os.path.splitext]. *)
From Coq Require Import DecimalString DecimalNat Decimal.
From Verif Require Import Py.

(** [str(n)] for a non-negative integer. *)
Definition str_of_nat (n : nat) : string :=
  NilEmpty.string_of_uint (Nat.to_uint n).

Fixpoint zeros (k : nat) : string :=
  match k with 0 => EmptyString | S k' => String "0" (zeros k') end.

(** ['{:04d}'.format(n)] *)
Definition fmt04 (n : nat) : string :=
  (zeros (4 - String.length (str_of_nat n)) ++ str_of_nat n)%string.

(** Everything before the last dot, if there is a dot. *)
Fixpoint before_last_dot (s : string) : option string :=
  match s with
  | EmptyString => None
  | String c r =>
      match before_last_dot r with
      | Some p => Some (String c p)
      | None => if Ascii.eqb c "." then Some EmptyString else None
      end
  end.

Fixpoint has_non_dot (s : string) : bool :=
  match s with
  | EmptyString => false
  | String c r => negb (Ascii.eqb c ".") || has_non_dot r
  end.

(** [os.path.splitext(s)[0]] for a path element [s] (no slash): the part
    before the last dot, unless only dots precede it
    (genericpath._splitext of the Python standard library). *)
Definition splitext_root (s : string) : string :=
  match before_last_dot s with
  | Some p => if has_non_dot p then p else s
  | None => s
  end.

(** Paths as lists of elements; [os.path.splitext] acts on the last one. *)
Definition path := list string.

Fixpoint splitext_path (p : path) : path :=
  match p with
  | [] => []
  | [s] => [splitext_root s]
  | s :: p' => s :: splitext_path p'
  end.
