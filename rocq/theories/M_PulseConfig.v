(** Model of the configuration of the module for pulses
    (/repo/egenerator/data/modules/data/pulse_data.py l.41-196) and of how its
    settings are used when data is read (l.219-255, l.443-476).

    Simplifications: [add_charge_quantiles] is a boolean; the objects of a file
    or a frame are given by kind and key, an object of another kind counts as
    missing; a key that is no string is rejected with an exception that is no
    KeyError; the branch of masks and unions of pulses (l.448-450) is left
    out. *)
From Coq Require Import Reals.
From Verif Require Import Py M_Config M_Tensor M_Pulse.
From Verif Require M_Handler.

(** Argument [config_data]: a plain value or a list of tensors *)
Inductive config_data := Plain (v : value) | Tensors (tl : tensor_list).

(** The entry of the settings; a list of tensors is stored as its serialised form
    with a tag, so that [==] compares lists of tensors as [tensors_eqb] does *)
Definition data_value (c : config_data) : value :=
  match c with
  | Plain v => v
  | Tensors tl => VTuple [VStr "DataTensorList"; VList (map VDict (serialize tl))]
  end.

(** [DataTensorList.__eq__] (tensor.py l.218-240) with [DataTensor.__eq__]
    (l.115-130): the other attributes of a list follow from its tensors *)
Definition tensors_eqb (a b : tensor_list) : bool := list_eqb deqb (serialize a) (serialize b).

(** A configured module: its configuration and [data] (l.169-177);
    [np_float_precision] is left out *)
Record pulse_module := {
  pm_conf : conf;
  pm_tensors : tensor_list;                 (* data['data_tensors'] *)
  pm_time_exist : bool;                     (* data['time_exclusions_exist'] *)
  pm_dom_exist : bool                       (* data['dom_exclusions_exist'] *)
}.

(** [key is not None] *)
Definition given (key : value) : bool := match key with VNone => false | _ => true end.

Section Configure.
Variable np_has : string -> bool.
Variable running_version : string.

(** The arguments of the seven tensors (l.123-166) *)
Definition grid_shape : value := VList [VNone; VInt 86; VInt 60; VInt 1].
Definition columns (n : Z) : value := VList [VNone; VInt n].
Definition vector (type reference : string) : value := VDict [("type", VStr type); ("reference", VStr reference)].
Definition tensor_arguments (precision : value) (pulse_dim : Z) (dom time : bool) : list (dict value) :=
  [ [("name", VStr "x_dom_charge"); ("shape", grid_shape); ("tensor_type", VStr "data"); ("dtype", precision); ("trafo", VBool true);
     ("trafo_reduce_axes", VTuple [VInt 1; VInt 2]); ("trafo_log", VBool true); ("trafo_batch_axis", VInt 0)];
    [("name", VStr "x_dom_exclusions"); ("shape", grid_shape); ("tensor_type", VStr "data"); ("dtype", VStr "bool"); ("exists", VBool dom)];
    [("name", VStr "x_pulses"); ("shape", columns pulse_dim); ("tensor_type", VStr "data"); ("vector_info", vector "value" "x_pulses_ids");
     ("dtype", precision)];
    [("name", VStr "x_pulses_ids"); ("shape", columns 3); ("tensor_type", VStr "data"); ("vector_info", vector "index" "x_pulses");
     ("dtype", VStr "int32")];
    [("name", VStr "x_time_window"); ("shape", columns 2); ("tensor_type", VStr "data"); ("dtype", precision)];
    [("name", VStr "x_time_exclusions"); ("shape", columns 2); ("tensor_type", VStr "data");
     ("vector_info", vector "value" "x_time_exclusions_ids"); ("dtype", precision); ("exists", VBool time)];
    [("name", VStr "x_time_exclusions_ids"); ("shape", columns 3); ("tensor_type", VStr "data");
     ("vector_info", vector "index" "x_time_exclusions"); ("dtype", VStr "int32"); ("exists", VBool time)] ].

Fixpoint tensors_init (l : list (dict value)) : result (list tensor) :=
  match l with
  | [] => Ok []
  | kw :: l' => bind (tensor_init np_has kw) (fun t => bind (tensors_init l') (fun ts => Ok (t :: ts)))
  end.

Definition pulse_class : string := "egenerator.data.modules.data.pulse_data.PulseDataModule".

(** [_configure] (l.41-196).  [getattr(np, float_precision)] (l.173) cannot fail
    since the tensors are checked before.  The configuration is created by
    [Configuration.__init__] *)
Definition pulse_configure (config_data : config_data) (pulse_key dom_exclusions_key time_exclusions_key float_precision : value)
    (add_charge_quantiles : bool) (discard : value) : result pulse_module :=
  match pulse_key with
  | VStr _ =>
      let time := given time_exclusions_key in
      let dom := given dom_exclusions_key in
      let pulse_dim := if add_charge_quantiles then 3%Z else 2%Z in
      bind (tensors_init (tensor_arguments float_precision pulse_dim dom time)) (fun ts =>
      bind (tensor_list_init ts) (fun tl =>
      bind (match config_data with
            | Tensors tl' => if negb (tensors_eqb tl' tl) then Err ValueError else Ok tt
            | Plain _ => Ok tt
            end) (fun _ =>
      bind (configuration_init running_version
              (mkConfig "" VNone pulse_class []
                 [("config_data", data_value config_data); ("float_precision", float_precision);
                  ("add_charge_quantiles", VBool add_charge_quantiles)]
                 [("pulse_key", pulse_key); ("dom_exclusions_key", dom_exclusions_key); ("time_exclusions_key", time_exclusions_key);
                  ("discard_pulses_from_excluded_doms", discard)]
                 [] [] [])) (fun cf =>
      Ok {| pm_conf := cf; pm_tensors := tl; pm_time_exist := time; pm_dom_exist := dom |}))))
  | _ => Err TypeError
  end.
End Configure.

(** [module.configuration.update_mutable_settings(new)]: [data] is not touched *)
Definition update_settings (new : dict value) (m : pulse_module) : pulse_module * option exn :=
  let (cf, e) := update_mutable_settings new (pm_conf m) in
  ({| pm_conf := cf; pm_tensors := pm_tensors m; pm_time_exist := pm_time_exist m; pm_dom_exist := pm_dom_exist m |}, e).

(** ** Reading *)

(** [self.configuration.config[key]] *)
Definition setting (m : pulse_module) (key : string) : result value :=
  match dget key (co_config (pm_conf m)) with Some v => Ok v | None => Err KeyError end.

(** [container[key]] *)
Definition item {A} (d : dict A) (key : value) : result A :=
  match key with
  | VStr s => match dget s d with Some x => Ok x | None => Err KeyError end
  | _ => Err TypeError
  end.

(** [container[key]] with the handler of KeyError (l.229-236, l.454-461) *)
Definition optional_item {A} (exist : bool) (d : dict A) (key : result value) : result (option A) :=
  if exist then
    match bind key (item d) with
    | Ok x => Ok (Some x)
    | Err KeyError => Ok None
    | Err e => Err e
    end
  else Ok None.

(** The settings used by the reader *)
Definition reader_config (m : pulse_module) : result pconfig :=
  bind (setting m "add_charge_quantiles") (fun q =>
  bind (setting m "discard_pulses_from_excluded_doms") (fun d =>
  Ok {| quant := M_Handler.truthy q; dom_key := pm_dom_exist m; time_key := pm_time_exist m; discard := M_Handler.truthy d |})).

(** The objects of a frame *)
Record frame_objects := {
  fo_pulses : dict (list ((Z * Z) * list (R * R)));
  fo_doms : dict (list (Z * Z));
  fo_times : dict (list ((Z * Z) * list (R * R)))
}.

Section Read.
Variable bad_doms : nat -> nat -> bool.

(** [get_data_from_frame] (l.422-650) *)
Definition frame_data (m : pulse_module) (f : frame_objects) : result presult :=
  bind (bind (setting m "pulse_key") (item (fo_pulses f))) (fun pulses =>
  bind (optional_item (pm_dom_exist m) (fo_doms f) (setting m "dom_exclusions_key")) (fun doms =>
  bind (optional_item (pm_time_exist m) (fo_times f) (setting m "time_exclusions_key")) (fun times =>
  bind (reader_config m) (fun c =>
  read_frame bad_doms c {| g_pulses := pulses; g_doms := doms; g_times := times |})))).

(** The tables of a file *)
Record file_tables := {
  ft_labels : option (list nat);            (* 'LabelsDeepLearning' *)
  ft_pulses : dict (list pulse);
  ft_doms : dict (list om);
  ft_times : dict (list window)
}.

(** [get_data_from_hdf] (l.198-420): whatever is raised while tables are read, the
    file is skipped (l.252-255) *)
Definition file_data (m : pulse_module) (j : memory) (f : file_tables) : result (option presult) :=
  match
    bind (bind (setting m "pulse_key") (item (ft_pulses f))) (fun pulses =>
    bind (match ft_labels f with Some l => Ok l | None => Err KeyError end) (fun labels =>
    bind (optional_item (pm_dom_exist m) (ft_doms f) (setting m "dom_exclusions_key")) (fun doms =>
    bind (optional_item (pm_time_exist m) (ft_times f) (setting m "time_exclusions_key")) (fun times =>
    Ok {| f_labels := Some labels; f_pulses := Some pulses; f_doms := doms; f_times := times |}))))
  with
  | Err _ => Ok None
  | Ok h => bind (reader_config m) (fun c => read_hdf bad_doms c j h)
  end.
End Read.
