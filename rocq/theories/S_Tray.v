(** Specification of the reconstruction tray and the function cache. *)
From Verif Require Import Py M_Tray.

(** ** The cache *)

Section Cache.
  Variables F S : Type.
  Variable fname : F -> string.
  Variable same : S -> S -> Prop.

  (** The first of a list of additions with the given name and settings. *)
  Inductive First (name : string) (s : S) : list (F * S) -> F -> Prop :=
    | first_here f s' l : fname f = name -> same s s' -> First name s ((f, s') :: l) f
    | first_later f s' l g : ~ (fname f = name /\ same s s') -> First name s l g ->
        First name s ((f, s') :: l) g.
End Cache.

(** ** The tray *)

Section Tray.
  Variables V D : Type.

  (** The dictionary of the results of the first modules: one entry per
      module, in order. *)
  Definition zip_results (names : list string) (rs : list (dict V))
    (times : nat -> V) : dict (dict V) :=
    map (fun k => (nth k names "", nth k rs [] ++ [("runtime", times k)]))
        (seq 0 (length rs)).

  (** [rs] are the results of running the modules one after the other, each
      on the results of those before. *)
  Definition Runs (names : list string) (modules : list (D -> dict (dict V) -> result (dict V)))
    (times : nat -> V) (d : D) (rs : list (dict V)) : Prop :=
    (length rs <= length modules)%nat /\
    forall k m, (k < length rs)%nat -> nth_error modules k = Some m ->
      m d (zip_results names (firstn k rs) times) = Ok (nth k rs []) /\
      ~ In "runtime" (map fst (nth k rs [])).
End Tray.

(** Trays built by adding modules; additions may fail. *)
Section Built.
  Variables V D F S : Type.
  Inductive Built : tray V D F S -> Prop :=
    | built_new : Built (new_tray V D F S)
    | built_add t cls name : Built t -> Built (fst (add_module V D F S cls name t)).

  (** No name is given. *)
  Inductive Unnamed : tray V D F S -> Prop :=
    | unnamed_new : Unnamed (new_tray V D F S)
    | unnamed_add t cls : Unnamed t -> Unnamed (fst (add_module V D F S cls None t)).
End Built.
