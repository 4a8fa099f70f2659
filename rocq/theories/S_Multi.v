(** Specification for the names of parameters and for sources made of several
    sources. *)
From Verif Require Import Py M_Config M_Component M_Multi.

(** The last place of a name. *)
Definition Last (names : list string) (n : string) (i : nat) : Prop :=
  nth_error names i = Some n /\ forall j, i < j -> nth_error names j <> Some n.

(** A component that can be part of another one, and the configuration it has. *)
Definition Ready (c : component) : Prop := k_configured c = true /\ k_conf c <> None.
Definition config_of (c : component) : option config :=
  match k_conf c with Some cf => Some (co_dict cf) | None => None end.

(** No source name followed by an underscore begins another source name. *)
Definition Apart (sources : list string) : Prop :=
  forall c d s, In c sources -> In d sources -> d <> (c ++ "_" ++ s)%string.

(** Arguments that are given in a usable way. *)
Definition UsableCall (c : call) : Prop :=
  vwf (a_config c) /\
  match a_name c with None => True | Some v => v <> VNone /\ vwf v end /\
  match a_trafo c with Omitted => True | GivenNone => False | Given t => Ready t end.

(** A tensor is computed, possibly among others, from the constant with the
    given name. *)
Inductive Depends (input : string) : node -> Prop :=
  | dep_itself : Depends input (Node input "Const" [])
  | dep_input name op l x : In x l -> Depends input x -> Depends input (Node name op l).

(** What is required of a source: its base exists, there are parameters for it,
    as many as the base has, and the tensor as a whole depends on the input. *)
Definition Fine (eager : bool) (input : string) (subs : dict nat) (params : dict (nat * node)) (s : string * string) : Prop :=
  exists n t, dget (snd s) subs = Some n /\ dget (fst s) params = Some (n, t) /\
    (eager = true \/ n = 0 \/ Depends input t).

(** What is raised for a source that is not fine. *)
Definition Wrong (eager : bool) (input : string) (subs : dict nat) (params : dict (nat * node)) (s : string * string) (e : exn) : Prop :=
  (dget (snd s) subs = None /\ e = KeyError) \/
  (dget (snd s) subs <> None /\ dget (fst s) params = None /\ e = KeyError) \/
  (exists n k t, dget (snd s) subs = Some n /\ dget (fst s) params = Some (k, t) /\ e = ValueError /\
     (k <> n \/ (eager = false /\ n <> 0 /\ ~ Depends input t))).
