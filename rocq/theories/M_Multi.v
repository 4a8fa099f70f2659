(** Model of the names of the parameters of sources and of the configuring,
    loading and checking of sources made of several sources
    (/repo/egenerator/model/source/base.py l.10-26, l.67-97, l.183-261,
    model/base.py l.202-228, model/multi_source/base.py l.141-245, l.296-311,
    l.544-714, independent.py l.25-96, track/stochastic_track.py l.52-57,
    muon/default.py l.52-56). *)
From Verif Require Import Py PyStr M_Config M_Component M_Build.
From Verif Require M_Train.

(** ** Names of parameters *)

(** [enumerate] *)
Definition enumerate {A} (l : list A) : list (nat * A) := combine (seq 0 (length l)) l.

(** 'parameter_name_dict' (source/base.py l.209-210, multi_source/base.py
    l.234-235): of equal names the last index stays. *)
Definition name_dict (names : list string) : dict nat :=
  fold_left (fun d iv => dset (snd iv) (fst iv) d) (enumerate names) [].

(** 'parameter_index_dict' (source/base.py l.211-212, multi_source/base.py
    l.236-237): the keys are integers. *)
Definition index_dict (names : list string) : list (Z * string) :=
  map (fun iv => (Z.of_nat (fst iv), snd iv)) (enumerate names).

Definition zlookup (z : Z) (d : list (Z * string)) : result string :=
  match find (fun kv => Z.eqb (fst kv) z) d with Some kv => Ok (snd kv) | None => Err KeyError end.

Definition lookup {A} (k : string) (d : dict A) : result A :=
  match dget k d with Some v => Ok v | None => Err KeyError end.

(** A source as far as its names matter: whether [_is_configured] is set and
    the names in its untracked data, which are there once [_configure] ran. *)
Record named := { n_configured : bool; n_names : option (list string) }.

(** [assert_configured] (model/base.py l.202-228) *)
Definition assert_configured (arg : value) (s : named) : result unit :=
  match arg with
  | VBool b => if Bool.eqb b (n_configured s) then Ok tt else Err ValueError
  | _ => Err TypeError
  end.

Definition names_held (s : named) : result (list string) :=
  match n_names s with Some l => Ok l | None => Err KeyError end.

(** [get_index] (source/base.py l.224-233) *)
Definition get_index (s : named) (n : string) : result nat :=
  bind (assert_configured (VBool true) s) (fun _ => bind (names_held s) (fun l => lookup n (name_dict l))).

(** [get_name] (source/base.py l.235-249) *)
Definition get_name (s : named) (i : Z) : result string :=
  bind (assert_configured (VBool true) s) (fun _ => bind (names_held s) (fun l => zlookup i (index_dict l))).

(** [InputTensorIndexer] (source/base.py l.10-25) for the columns [tensor[..., i]]
    of a tensor. *)
Definition indexer {A} (names : list string) (columns : list A) : result (dict A) :=
  if negb (Nat.eqb (length columns) (length names)) then Err ValueError
  else Ok (fold_left (fun d nv => dset (fst nv) (snd nv) d) (combine names columns) []).

(** [add_parameter_indexing] (source/base.py l.251-261): the attribute 'params' *)
Definition params_of {A} (s : named) (columns : list A) : result (dict A) :=
  bind (names_held s) (fun l => indexer l columns).

(** ** Which parameters and sources there are *)

Section Multi.
(** 'parameter_names' of a configured source. *)
Variable names_of : component -> list string.

(** [get_parameters_and_mapping]: from the settings and the base sources to the
    names of the parameters and the base of every source. *)
Definition mapping := value -> dict component -> result (list string * dict string).

(** The names of sources and bases in the entry 'sources'.  Simplified: a base
    that is not a string counts as missing (KeyError). *)
Fixpoint string_values (d : dict value) : result (dict string) :=
  match d with
  | [] => Ok []
  | (k, VStr b) :: rest => bind (string_values rest) (fun r => Ok ((k, b) :: r))
  | _ :: _ => Err KeyError
  end.

Fixpoint independent_names (bases : dict component) (sources : dict string) (sorted : list string) : result (list string) :=
  match sorted with
  | [] => Ok []
  | c :: rest =>
      bind (lookup c sources) (fun b =>
      bind (lookup b bases) (fun s =>
      bind (independent_names bases sources rest) (fun l =>
      Ok (map (fun v => (c ++ "_" ++ v)%string) (names_of s) ++ l))))
  end.

(** independent.py l.25-67 *)
Definition independent_mapping : mapping := fun config bases =>
  match config with
  | VDict c =>
      bind (lookup "sources" c) (fun s =>
      match s with
      | VDict d =>
          bind (string_values d) (fun sources =>
          bind (independent_names bases sources (M_Train.ssort (dkeys sources))) (fun names => Ok (names, sources)))
      | _ => Err AttributeError
      end)
  | _ => Err TypeError
  end.

(** [get_source_parameters] (independent.py l.69-96) on the columns. *)
Fixpoint independent_blocks {A} (subs : dict component) (sources : dict string) (columns : list A) (counter : nat)
  (sorted : list string) (d : dict (list A)) : result (dict (list A)) :=
  match sorted with
  | [] => Ok d
  | c :: rest =>
      bind (lookup c sources) (fun b =>
      bind (lookup b subs) (fun s =>
      let num := length (names_of s) in
      independent_blocks subs sources columns (counter + num) rest (dset c (firstn num (skipn counter columns)) d)))
  end.
Definition independent_split {A} (subs : dict component) (sources : dict string) (columns : list A) : result (dict (list A)) :=
  independent_blocks subs sources columns 0 (M_Train.ssort (dkeys sources)) [].

(** The tracks with stochastic losses (stochastic_track.py l.52-57) and the
    cascades along a muon (muon/default.py l.52-56) first look at 'num_cascades'
    and then insist on the names of the base sources; the rest, [rest], only
    depends on the settings. *)
Definition track_mapping (rest : value -> result (list string * dict string)) : mapping := fun config bases =>
  bind (vget config "num_cascades") (fun _ =>
  if list_eqb String.eqb (M_Train.ssort (dkeys bases)) ["cascade"; "track"]%string then rest config else Err ValueError).
Definition muon_mapping (rest : value -> result (list string * dict string)) : mapping := fun config bases =>
  bind (vget config "num_cascades") (fun _ =>
  if list_eqb String.eqb (dkeys bases) ["cascade"]%string then rest config else Err ValueError).

(** ** Configuring *)

(** Dictionary objects of the caller. *)
Definition heap := nat -> dict component.
Definition upd (h : heap) (loc : nat) (d : dict component) : heap := fun l => if Nat.eqb l loc then d else h l.

(** The argument 'data_trafo': left out, [None], or a component. *)
Inductive targ := Omitted | GivenNone | Given (t : component).

(** The arguments of [configure] besides the dictionary of base sources. *)
Record call := { a_config : value; a_trafo : targ; a_name : option value }.

(** The keyword arguments in the order in which [build_model] passes them
    (utils/build_components.py l.142-149). *)
Definition kwargs_of (c : call) (bases : dict component) : dict arg :=
  [("config", arg_of (a_config c))]
  ++ match a_trafo c with Omitted => [] | GivenNone => [("data_trafo", AScalar VNone)] | Given t => [("data_trafo", AComp t)] end
  ++ [("base_sources", ADict (map (fun kv => (fst kv, IComp (snd kv))) bases))]
  ++ match a_name c with None => [] | Some v => [("name", arg_of v)] end.

(** l.203-204 *)
Definition default_name : value := VStr "egenerator.model.multi_source.base".
Definition name_given (o : option value) : value :=
  match o with None | Some VNone => default_name | Some v => v end.

(** The dictionary of sub-components (l.215-217): the one of the caller. *)
Definition with_trafo (t : targ) (bases : dict component) : dict component :=
  match t with Given t => dset "data_trafo" t bases | _ => bases end.

Variable running_version : string.
Variable git : value.
Variable cls : string.
Variable get_mapping : mapping.

(** [_configure_derived_class] (l.141-245).  The check for new variables
    (l.206-227) is left out: none of the mappings creates any. *)
Definition derived (c : call) (bases : dict component) : result (hook_out * (list string * dict string)) :=
  bind (get_mapping (a_config c) bases) (fun found =>
  bind (configuration_init running_version
          (mkConfig "" git cls [] [("config"%string, a_config c)] [("name"%string, name_given (a_name c))] [] [] [])) (fun cf =>
  Ok (mkHook cf (VDict []) (HDict (with_trafo (a_trafo c) bases)) [], found))).

(** A configured multi source: the component as [configure] left it, whose
    sub-components are a snapshot; the place of the dictionary that it really
    refers to; and what is in its untracked data (l.230-237). *)
Record mobj := { m_comp : component; m_loc : nat; m_name : value; m_names : list string; m_sources : dict string }.

(** [configure] of a new multi source with the dictionary at [loc]: the
    dictionaries afterwards, the object and the exception. *)
Definition multi_configure (h : heap) (loc : nat) (c : call) : heap * mobj * option exn :=
  let bases := h loc in
  let kwargs := kwargs_of c bases in
  let hook : hook := fun _ => bind (derived c bases) (fun r => Ok (fst r)) in
  let '(comp, e) := configure hook kwargs (new_component cls) in
  match collect kwargs [] [], derived c bases with
  | Ok _, Ok (out, (names, sources)) =>
      (upd h loc (with_trafo (a_trafo c) bases),
       {| m_comp := comp; m_loc := loc; m_name := name_given (a_name c); m_names := names; m_sources := sources |}, e)
  | _, _ => (h, {| m_comp := comp; m_loc := loc; m_name := VNone; m_names := []; m_sources := [] |}, e)
  end.

(** The sub-component the object has now. *)
Definition live (h : heap) (m : mobj) (k : string) : option component := dget k (h (m_loc m)).

(** The configuration of a sub-component that the object recorded. *)
Definition recorded (m : mobj) (k : string) : option config :=
  match k_conf (m_comp m) with Some cf => dget k (c_subs (co_dict cf)) | None => None end.

(** ** Use and loading *)

(** Names and flags of the tensors of a transformer. *)
Variable tensors_of : component -> dict bool.

(** The start of [get_tensors] (l.296-311): whether time exclusions exist. *)
Definition time_exclusions (h : heap) (m : mobj) : result bool :=
  if negb (k_configured (m_comp m)) then Err ValueError
  else match live h m "data_trafo" with
       | None => Err AttributeError
       | Some t => Ok (match dget "x_time_exclusions" (tensors_of t) with Some b => b | None => false end)
       end.

(** [_load] (l.544-599) of an object whose configuration, data and
    sub-components were read: the names and sources of its untracked data.
    Simplified: the configuration holds the settings 'config' and 'name'. *)
Definition reload (configured : bool) (config name : value) (subs : dict component)
  : result (option (value * list string * dict string)) :=
  if configured then Ok None
  else
    bind (lookup "data_trafo" subs) (fun t =>
    let bases := filter (fun kv => negb (String.eqb (fst kv) "data_trafo")) subs in
    bind (derived {| a_config := config; a_trafo := Given t; a_name := Some name |} bases) (fun r =>
    Ok (Some (name_given (Some name), fst (snd r), snd (snd r))))).
End Multi.

(** ** The check of the parameters *)

(** A tensor of a graph: name, kind of its operation, tensors it is computed
    from. *)
Inductive node := Node (name op : string) (inputs : list node).
Definition node_name (n : node) : string := match n with Node s _ _ => s end.

(** [_find_top_nodes] (l.683-714); the result is a set. *)
Fixpoint top_nodes (collect : string) (n : node) : list string :=
  match n with
  | Node name op [] => if String.eqb op "Const" && String.eqb name collect then [name] else []
  | Node name op inputs => (fix go (l : list node) : list string := match l with [] => [] | x :: l' => top_nodes collect x ++ go l' end) inputs
  end.

(** Column [i] of a tensor (l.645): a slice of it; [consts] are the constants
    for begin, end and strides. *)
Definition slice (consts : list node) (t : node) : node := Node "strided_slice" "StridedSlice" (t :: consts).

(** [set == set([name])] *)
Definition is_singleton (s : string) (l : list string) : bool :=
  negb (Nat.eqb (length l) 0) && forallb (String.eqb s) l.

(** The loop over the components (l.644-668) *)
Fixpoint check_columns (consts : nat -> list node) (input : string) (t : node) (is : list nat) : option exn :=
  match is with
  | [] => None
  | i :: rest =>
      let top := top_nodes input (slice (consts i) t) in
      if negb (smem input top) then Some ValueError
      else if negb (forallb (String.eqb input) top) then Some ValueError
      else check_columns consts input t rest
  end.

(** [check_source_parameter_creation] (l.601-671); [eager]: tensors have no
    [op], so that AttributeError is raised and caught; [subs]: number of
    parameters of the sub-components; [params]: number of columns and tensor of
    every source as [get_source_parameters] returned them. *)
Fixpoint check_sources (eager : bool) (consts : nat -> list node) (input : string) (subs : dict nat) (params : dict (nat * node))
  (sources : list (string * string)) : option exn :=
  match sources with
  | [] => None
  | (name, base) :: rest =>
      match dget base subs with
      | None => Some KeyError
      | Some num =>
          match dget name params with
          | None => Some KeyError
          | Some (columns, t) =>
              if negb (Nat.eqb columns num) then Some ValueError
              else if eager then check_sources eager consts input subs params rest
              else if is_singleton input (top_nodes input t) then check_sources eager consts input subs params rest
              else match check_columns consts input t (seq 0 num) with
                   | Some e => Some e
                   | None => check_sources eager consts input subs params rest
                   end
          end
      end
  end.
