(** What is expected of the configuration of the module for pulses and of later
    changes of its settings. *)
From Coq Require Import Reals.
From Verif Require Import Py M_Tensor M_PulseConfig.

(** ** Tensors *)
Record row := { r_name : string; r_dims : list (option Z); r_dtype : string; r_present : bool; r_link : option (string * string) }.

Definition layout (precision : string) (quantiles dom time : bool) : list row :=
  [ {| r_name := "x_dom_charge"; r_dims := [None; Some 86%Z; Some 60%Z; Some 1%Z]; r_dtype := precision; r_present := true; r_link := None |};
    {| r_name := "x_dom_exclusions"; r_dims := [None; Some 86%Z; Some 60%Z; Some 1%Z]; r_dtype := "bool"; r_present := dom; r_link := None |};
    {| r_name := "x_pulses"; r_dims := [None; Some (if quantiles then 3%Z else 2%Z)]; r_dtype := precision; r_present := true;
       r_link := Some ("value", "x_pulses_ids") |};
    {| r_name := "x_pulses_ids"; r_dims := [None; Some 3%Z]; r_dtype := "int32"; r_present := true; r_link := Some ("index", "x_pulses") |};
    {| r_name := "x_time_exclusions"; r_dims := [None; Some 2%Z]; r_dtype := precision; r_present := time;
       r_link := Some ("value", "x_time_exclusions_ids") |};
    {| r_name := "x_time_exclusions_ids"; r_dims := [None; Some 3%Z]; r_dtype := "int32"; r_present := time;
       r_link := Some ("index", "x_time_exclusions") |};
    {| r_name := "x_time_window"; r_dims := [None; Some 2%Z]; r_dtype := precision; r_present := true; r_link := None |} ].

Definition describes (r : row) (t : tensor) : Prop :=
  t_name t = r_name r /\ t_shape t = VList (map (fun d => match d with None => VNone | Some n => VInt n end) (r_dims r)) /\
  t_type t = "data" /\ t_dtype t = r_dtype r /\ t_exists t = VBool (r_present r) /\
  t_vector_info t = match r_link r with None => VNone | Some (ty, other) => VDict [("type", VStr ty); ("reference", VStr other)] end /\
  t_specs t = [] /\ t_log_axis t = VInt (-1) /\ t_batch_axis t = VInt 0 /\
  (* only the charges are transformed: logarithm, reduced over strings and DOMs *)
  if String.eqb (r_name r) "x_dom_charge"
  then t_trafo t = VBool true /\ t_reduce_axes t = VTuple [VInt 1; VInt 2] /\ t_log t = VList [VBool true]
  else t_trafo t = VBool false.

(** ** Compatibility *)

(** Equal arguments [config_data]: equal plain values, or lists with equal tensors *)
Definition same_data (a b : config_data) : Prop :=
  match a, b with
  | Plain v, Plain w => veqb v w = true
  | Tensors l, Tensors k => list_eqb deqb (serialize l) (serialize k) = true
  | _, _ => False
  end.

(** A plain argument is no tuple (lists of tensors are stored as tagged tuples) *)
Definition no_tuple (c : config_data) : Prop := match c with Plain (VTuple _) => False | _ => True end.

(** ** Changes of settings *)

(** Values of the settings that may be changed *)
Record keys := { k_pulse : value; k_dom : value; k_time : value; k_discard : value }.

Definition assign (name : string) (v : value) (s : keys) : option keys :=
  if String.eqb name "pulse_key" then Some {| k_pulse := v; k_dom := k_dom s; k_time := k_time s; k_discard := k_discard s |}
  else if String.eqb name "dom_exclusions_key" then Some {| k_pulse := k_pulse s; k_dom := v; k_time := k_time s; k_discard := k_discard s |}
  else if String.eqb name "time_exclusions_key" then Some {| k_pulse := k_pulse s; k_dom := k_dom s; k_time := v; k_discard := k_discard s |}
  else if String.eqb name "discard_pulses_from_excluded_doms"
       then Some {| k_pulse := k_pulse s; k_dom := k_dom s; k_time := k_time s; k_discard := v |}
  else None.

(** One update: all assignments up to the first unknown name; is every name known? *)
Fixpoint assign_all (new : dict value) (s : keys) : keys * bool :=
  match new with
  | [] => (s, true)
  | (name, v) :: rest => match assign name v s with Some s' => assign_all rest s' | None => (s, false) end
  end.

(** Stored settings and settings in effect: an update with an unknown name is
    stored up to that name but takes effect with the next complete update only *)
Definition step (st : keys * keys) (new : dict value) : keys * keys :=
  let (s, ok) := assign_all new (fst st) in (s, if ok then s else snd st).
Definition history (s : keys) (news : list (dict value)) : keys * keys := fold_left step news (s, s).
Definition in_effect (s : keys) (news : list (dict value)) : keys := snd (history s news).

Definition updates (news : list (dict value)) (m : pulse_module) : pulse_module :=
  fold_left (fun m new => fst (update_settings new m)) news m.

(** A key has a value, a key is a name *)
Definition is_given (v : value) : Prop := v <> VNone.
Definition is_name (v : value) : Prop := exists s, v = VStr s.

(** The key as seen by a module configured with [before] *)
Definition seen (before now : value) : value := match before with VNone => VNone | _ => now end.

(** What is looked up under an optional key *)
Definition looked_up {A} (key : value) (d : dict A) : option A := match key with VStr s => dget s d | _ => None end.
Definition optional (v : value) : Prop := v = VNone \/ is_name v.
