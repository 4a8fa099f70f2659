(** What a user expects of the seed loader and the filter. *)
From Coq Require Import Reals.
From Verif Require Import Py.
Open Scope R_scope.

(** ** Seeds *)

(** The value of a parameter of an event: its entry in the column of the table,
    else the value given for this parameter, else the general value *)
Inductive SeedValue (table : list (string * list R)) (special : list (string * R)) (general : option R)
    (k : nat) (name : string) : R -> Prop :=
| SeedColumn : forall column v,
    dget name table = Some column -> nth_error column k = Some v ->
    SeedValue table special general k name v
| SeedSpecial : forall v,
    dget name table = None -> dget name special = Some v ->
    SeedValue table special general k name v
| SeedGeneral : forall v,
    dget name table = None -> dget name special = None -> general = Some v ->
    SeedValue table special general k name v.

(** A parameter which is neither in the table nor has a fill value *)
Definition Unavailable (names : list string) (special : list (string * R)) (general : option R)
    (name : string) : Prop :=
  ~ In name names /\ ~ In name (map fst special) /\ general = None.

(** ** Filter *)

(** What an operation means *)
Inductive Holds : string -> R -> R -> Prop :=
| HoldsGt : forall v t, v > t -> Holds ">" v t
| HoldsGe : forall v t, v >= t -> Holds ">=" v t
| HoldsLe : forall v t, v <= t -> Holds "<=" v t
| HoldsLt : forall v t, v < t -> Holds "<" v t
| HoldsEq : forall v t, v = t -> Holds "==" v t.

Definition Known (op : string) : Prop := In op [">"; ">="; "<="; "<"; "=="].

(** The rows of a table holding one vector per event *)
Definition vector_rows (vectors : list (list R)) : list (Z * R) :=
  flat_map (fun v => combine (map Z.of_nat (seq 0 (length v))) v) vectors.
