(** Model of the modules that load the labels of cascades and tracks
    (/repo/egenerator/data/modules/labels/cascades.py, snowstorm_cascades.py,
    snowstorm_tracks.py and snowstorm_track_segment.py).

    Simplifications: numbers are exact reals, so the conversion to the
    configured precision changes nothing; all four classes take one record of
    arguments, of which each uses its own.  [muons.py] is left out: its
    constructor refers to a class it does not import (l.30). *)
From Coq Require Import Reals.
From Verif Require Import Py PyStr RList M_Tensor M_Source.
Open Scope R_scope.

(** ** Configuration *)

Inductive label_class := CascadeLabels | SnowCascadeLabels | SnowTrackLabels | SnowSegmentLabels.

(** The arguments of [_configure] (cascades.py l.30-31, snowstorm_cascades.py
    l.30-34, snowstorm_tracks.py l.30-35, snowstorm_track_segment.py l.30-33).
    [la_config_data] is [None] if no list of tensors is given. *)
Record label_args := {
  la_class : label_class;
  la_config_data : option tensor_list;
  la_shift : value;                          (* shift_cascade_vertex *)
  la_log : value;                            (* trafo_log *)
  la_precision : value;                      (* float_precision *)
  la_label_key : string;
  la_additional : option (list string);      (* additional_labels *)
  la_cascades : Z;                           (* num_cascades *)
  la_snow_key : option string;               (* snowstorm_key *)
  la_num_snow : Z                            (* num_snowstorm_params *)
}.

(** [shift_cascade_vertex is a bool and True]; segments are not shifted. *)
Definition shifts (a : label_args) : bool :=
  match la_class a with
  | SnowSegmentLabels => false
  | _ => match la_shift a with VBool b => b | _ => false end
  end.

(** The number of systematics parameters; the plain cascade labels have none. *)
Definition snow_params (a : label_args) : Z :=
  match la_class a with CascadeLabels => 0%Z | _ => la_num_snow a end.

(** [label_names] (cascades.py l.150-151, snowstorm_cascades.py l.122-127). *)
Definition cascade_labels (additional : list string) : list string :=
  ["cascade_x"; "cascade_y"; "cascade_z"; "cascade_zenith"; "cascade_azimuth"; "cascade_energy"; "cascade_t"]%string ++ additional.

(** [parameter_names] (snowstorm_tracks.py l.131-145). *)
Definition track_labels (num_cascades : Z) : list string :=
  ["zenith"; "azimuth"; "track_anchor_x"; "track_anchor_y"; "track_anchor_z"; "track_anchor_time"; "track_energy";
   "track_distance_start"; "track_distance_end"; "track_stochasticity"]%string
  ++ (if (1 <=? num_cascades)%Z
      then "cascade_0000_energy"%string ::
           (if (1 <? num_cascades)%Z
            then flat_map (fun i => [("cascade_" ++ fmt04 i ++ "_energy")%string; ("cascade_" ++ fmt04 i ++ "_distance")%string])
                   (seq 1 (Z.to_nat num_cascades - 1))
            else [])
      else []).

(** Labels of a segment (snowstorm_track_segment.py l.176-179). *)
Definition segment_labels : list string :=
  ["track_anchor_x"; "track_anchor_y"; "track_anchor_z"; "zenith"; "azimuth"; "track_energy"; "track_anchor_time";
   "track_distance_end"; "track_stochasticity"]%string.

(** The labels that are read, in order. *)
Definition label_names (a : label_args) : list string :=
  match la_class a with
  | CascadeLabels => cascade_labels []
  | SnowCascadeLabels => cascade_labels (match la_additional a with Some l => l | None => [] end)
  | SnowTrackLabels => track_labels (la_cascades a)
  | SnowSegmentLabels => segment_labels
  end.

(** [num_params] (snowstorm_tracks.py l.123-129). *)
Definition track_params (num_cascades : Z) : Z :=
  if (num_cascades =? 0)%Z then 10%Z else if (num_cascades =? 1)%Z then 11%Z else (11 + (num_cascades - 1) * 2)%Z.

(** The number of entries of a single boolean (snowstorm_cascades.py l.116,
    snowstorm_tracks.py l.153, snowstorm_track_segment.py l.109). *)
Definition flag_count (a : label_args) : Z :=
  match la_class a with SnowTrackLabels => track_params (la_cascades a) | SnowSegmentLabels => 9%Z | _ => 7%Z end.

(** [num_params + num_snowstorm_params] of the shape (cascades.py l.100,
    snowstorm_cascades.py l.132, snowstorm_tracks.py l.164,
    snowstorm_track_segment.py l.120). *)
Definition shape_columns (a : label_args) : Z :=
  match la_class a with
  | CascadeLabels => 7%Z
  | SnowCascadeLabels => (Z.of_nat (length (label_names a)) + la_num_snow a)%Z
  | SnowTrackLabels => (track_params (la_cascades a) + la_num_snow a)%Z
  | SnowSegmentLabels => (9 + la_num_snow a)%Z
  end.

(** [trafo_log_ext] (snowstorm_cascades.py l.114-119); the plain cascade labels
    pass on what they are given (cascades.py l.104).  [list(x)] of a string or a
    dictionary is not modelled and counted as an error. *)
Definition extended_log (a : label_args) : result value :=
  match la_class a with
  | CascadeLabels => Ok (la_log a)
  | _ =>
      bind (match la_log a with
            | VBool b => Ok (repeat (VBool b) (Z.to_nat (flag_count a)))
            | VList l => Ok l
            | VTuple l => Ok l
            | _ => Err TypeError
            end) (fun l => Ok (VList (l ++ repeat (VBool false) (Z.to_nat (la_num_snow a)))))
  end.

(** [==] of two tensors and two lists of tensors (data/tensor.py l.115-130,
    l.218-240). *)
Definition tensor_eqb (t u : tensor) : bool := deqb (to_dict t) (to_dict u).
Definition tensor_list_eqb (l m : tensor_list) : bool := list_eqb tensor_eqb (tl_list l) (tl_list m).

Section Configure.
(** [hasattr(np, dtype)]. *)
Variable np_has : string -> bool.

(** [_configure] (cascades.py l.92-118, snowstorm_cascades.py l.109-153,
    snowstorm_tracks.py l.115-185, snowstorm_track_segment.py l.108-139): the
    list of label tensors. *)
Definition configure_labels (a : label_args) : result tensor_list :=
  bind (match la_class a, la_shift a with
        | SnowSegmentLabels, _ => Ok tt
        | _, VBool _ => Ok tt
        | _, _ => Err TypeError
        end) (fun _ =>
  bind (match la_class a with
        | SnowTrackLabels => if (la_cascades a <? 0)%Z then Err ValueError else Ok tt
        | _ => Ok tt
        end) (fun _ =>
  bind (extended_log a) (fun log =>
  bind (tensor_init np_has
          [("name", VStr "x_parameters"); ("shape", VList [VNone; VInt (shape_columns a)]); ("tensor_type", VStr "label");
           ("dtype", la_precision a); ("trafo", VBool true); ("trafo_log", log)]) (fun t =>
  bind (tensor_list_init [t]) (fun l =>
  match la_config_data a with
  | Some given => if tensor_list_eqb given l then Ok l else Err ValueError
  | None => Ok l
  end))))).
End Configure.

(** ** Shifting to the maximum of the shower *)

(** [_shift_to_maximum] applied to the first seven columns, and the assignment
    of its results (snowstorm_cascades.py l.223-229 and l.294-300, l.356-413;
    cascades.py l.161-167, l.212-218, l.275-332). *)
Definition shift_cascades (cols : list (list R)) : list (list R) :=
  match cols with
  | x :: y :: z :: zenith :: azimuth :: energy :: t :: rest =>
      let dir_x := zipw (fun ze az => - sin ze * cos az) zenith azimuth in
      let dir_y := zipw (fun ze az => - sin ze * sin az) zenith azimuth in
      let dir_z := map (fun ze => - cos ze) zenith in
      let l := map length_to_maximum energy in
      zipw Rplus x (zipw Rmult dir_x l) :: zipw Rplus y (zipw Rmult dir_y l) :: zipw Rplus z (zipw Rmult dir_z l) ::
      zenith :: azimuth :: energy :: zipw Rplus t (map (fun v => v / c_light) l) :: rest
  | _ => cols
  end.

(** [parameter_dict] (snowstorm_tracks.py l.147-149). *)
Definition parameter_dict (names : list string) : dict nat :=
  fold_left (fun d kv => dset (fst kv) (snd kv) d) (combine names (seq 0 (length names))) [].

(** [parameters[param_dict[name]]] *)
Definition get_column (names : list string) (name : string) (cols : list (list R)) : result (list R) :=
  bind (lookup name (parameter_dict names)) (fun i =>
  match nth_error cols i with Some c => Ok c | None => Err IndexError end).

Fixpoint replace_at {A} (i : nat) (v : A) (l : list A) : list A :=
  match l, i with
  | [], _ => []
  | _ :: l', 0%nat => v :: l'
  | x :: l', S i' => x :: replace_at i' v l'
  end.

(** [parameters[param_dict[name]] op= delta] *)
Definition update_column (names : list string) (name : string) (op : R -> R -> R) (delta : list R) (cols : list (list R)) : result (list (list R)) :=
  bind (lookup name (parameter_dict names)) (fun i =>
  match nth_error cols i with
  | Some c => Ok (replace_at i (zipw op c delta) cols)
  | None => Err IndexError
  end).

(** The remaining cascades (snowstorm_tracks.py l.417-429).
    [_get_cascade_extension] (l.433-467) is the function of
    [_shift_to_maximum]. *)
Fixpoint shift_distances (names : list string) (shift : list R) (is : list nat) (cols : list (list R)) : result (list (list R)) :=
  match is with
  | [] => Ok cols
  | i :: rest =>
      bind (get_column names ("cascade_" ++ fmt04 i ++ "_energy")%string cols) (fun energy =>
      let shift_i := map length_to_maximum energy in
      bind (update_column names ("cascade_" ++ fmt04 i ++ "_distance")%string Rminus shift cols) (fun cols =>
      bind (update_column names ("cascade_" ++ fmt04 i ++ "_distance")%string Rplus shift_i cols) (fun cols =>
      shift_distances names shift rest cols)))
  end.

(** [_shift_parameters] (snowstorm_tracks.py l.378-431). *)
Definition shift_tracks (num_cascades : Z) (cols : list (list R)) : result (list (list R)) :=
  let names := track_labels num_cascades in
  bind (get_column names "zenith" cols) (fun zenith =>
  bind (get_column names "azimuth" cols) (fun azimuth =>
  let dir_x := zipw (fun ze az => - sin ze * cos az) zenith azimuth in
  let dir_y := zipw (fun ze az => - sin ze * sin az) zenith azimuth in
  let dir_z := map (fun ze => - cos ze) zenith in
  if (0 <? num_cascades)%Z
  then
    bind (get_column names "cascade_0000_energy" cols) (fun energy =>
    let shift := map length_to_maximum energy in
    bind (update_column names "track_anchor_x" Rplus (zipw Rmult dir_x shift) cols) (fun cols =>
    bind (update_column names "track_anchor_y" Rplus (zipw Rmult dir_y shift) cols) (fun cols =>
    bind (update_column names "track_anchor_z" Rplus (zipw Rmult dir_z shift) cols) (fun cols =>
    bind (update_column names "track_anchor_time" Rplus (map (fun v => v / c_light) shift) cols) (fun cols =>
    bind (update_column names "track_distance_start" Rminus shift cols) (fun cols =>
    bind (update_column names "track_distance_end" Rminus shift cols) (fun cols =>
    shift_distances names shift (seq 1 (Z.to_nat num_cascades - 1)) cols)))))))
  else Ok cols)).

(** The step after the columns are read. *)
Definition shift_columns (a : label_args) (cols : list (list R)) : result (list (list R)) :=
  if shifts a
  then match la_class a with
       | SnowTrackLabels => shift_tracks (la_cascades a) cols
       | SnowSegmentLabels => Ok cols
       | _ => Ok (shift_cascades cols)
       end
  else Ok cols.

(** [np.array(columns).T]: the rows; columns of different lengths cannot be
    converted. *)
Definition transpose (cols : list (list R)) : result (list (list R)) :=
  match cols with
  | [] => Ok []
  | c :: _ =>
      if forallb (fun d => Nat.eqb (length d) (length c)) cols
      then Ok (map (fun j => map (fun d => nth j d 0) cols) (seq 0 (length c)))
      else Err ValueError
  end.

(** What [get_data_from_hdf] and [get_data_from_frame] return: [(None, None)] or
    the number of events and the rows. *)
Definition loaded := option (nat * list (list R)).

(** The end of both functions (snowstorm_cascades.py l.216-237 and l.289-308;
    likewise in the other files): errors while reading are caught, later ones
    are not. *)
Definition finish_loading (a : label_args) (r : result (list (list R))) : result loaded :=
  match r with
  | Err _ => Ok None
  | Ok cols =>
      bind (shift_columns a cols) (fun cols =>
      bind (transpose cols) (fun rows => Ok (Some (length rows, rows))))
  end.

Fixpoint collect {A B} (f : A -> result B) (l : list A) : result (list B) :=
  match l with
  | [] => Ok []
  | x :: l' => bind (f x) (fun y => bind (collect f l') (fun ys => Ok (y :: ys)))
  end.

Definition check (b : bool) : result unit := if b then Ok tt else Err AssertionError.

(** ** Loading from a file *)

(** A table of the file: columns of numbers, and the integer column
    'vector_index' if the table has one. *)
Record table := { columns : dict (list R); vector_index : option (list Z) }.

(** [params[index == i]] *)
Definition masked (params : list R) (index : list Z) (i : Z) : list R :=
  map fst (filter (fun p => Z.eqb (snd p) i) (combine params index)).

(** [max(index)], [min(index)]; errors if there are none. *)
Definition pick (f : Z -> Z -> Z) (l : list Z) : result Z :=
  match l with [] => Err ValueError | x :: l' => Ok (fold_left f l' x) end.

(** The columns of the systematics parameters of a file (snowstorm_cascades.py
    l.193-214, snowstorm_tracks.py l.225-246, snowstorm_track_segment.py
    l.185-206). *)
Definition snow_columns (a : label_args) (f : dict table) (num_events : nat) : result (list (list R)) :=
  let n := snow_params a in
  if (0 <? n)%Z
  then match la_snow_key a with
       | Some key =>
           bind (lookup key f) (fun s =>
           bind (lookup "item" (columns s)) (fun params =>
           bind (match vector_index s with Some i => Ok i | None => Err KeyError end) (fun index =>
           bind (pick Z.max index) (fun hi =>
           bind (check (Z.eqb hi (n - 1))) (fun _ =>
           bind (pick Z.min index) (fun lo =>
           bind (check (Z.eqb lo 0)) (fun _ =>
           collect (fun i => let c := masked params index (Z.of_nat i) in
                             bind (check (Nat.eqb (length c) num_events)) (fun _ => Ok c))
             (seq 0 (Z.to_nat n)))))))))
       | None => Ok (repeat (repeat 1 num_events) (Z.to_nat n))
       end
  else Ok [].

(** All columns (cascades.py l.147-152, snowstorm_cascades.py l.187-214,
    snowstorm_tracks.py l.219-246, snowstorm_track_segment.py l.173-206). *)
Definition hdf_columns (a : label_args) (f : dict table) : result (list (list R)) :=
  bind (lookup (la_label_key a) f) (fun labels =>
  bind (collect (fun l => lookup l (columns labels)) (label_names a)) (fun cols =>
  bind (match la_class a with
        | SnowSegmentLabels =>
            bind (lookup "track_distance_start" (columns labels)) (fun start => check (forallb (fun v => Reqb v 0) start))
        | _ => Ok tt
        end) (fun _ =>
  bind (match cols with c :: _ => Ok (length c) | [] => Err IndexError end) (fun num_events =>
  bind (snow_columns a f num_events) (fun snow => Ok (cols ++ snow)))))).

(** [get_data_from_hdf] (cascades.py l.120-175, snowstorm_cascades.py l.155-237,
    snowstorm_tracks.py l.187-264, snowstorm_track_segment.py l.141-220).
    [configured] is the state of the module, [None] a file that cannot be
    opened, which is not caught. *)
Definition labels_from_hdf (configured : bool) (a : label_args) (file : option (dict table)) : result loaded :=
  if negb configured then Err ValueError
  else match file with
       | None => Err IOError
       | Some f => finish_loading a (hdf_columns a f)
       end.

(** ** Loading from a frame *)

(** Objects of a frame: a map of numbers or a vector. *)
Inductive label_object := LMap (m : dict R) | LVector (v : list R).

(** [np.atleast_1d(labels[l])]; a vector cannot be indexed with a string. *)
Definition frame_label (o : label_object) (l : string) : result (list R) :=
  match o with
  | LMap m => bind (lookup l m) (fun v => Ok [v])
  | LVector _ => Err TypeError
  end.

(** [len(o)] and [o[i]]; a map cannot be indexed with a number. *)
Definition frame_length (o : label_object) : nat := match o with LMap m => length m | LVector v => length v end.
Definition frame_item (o : label_object) (i : nat) : result (list R) :=
  match o with
  | LMap _ => Err TypeError
  | LVector v => match nth_error v i with Some x => Ok [x] | None => Err IndexError end
  end.

(** The systematics parameters of a frame (snowstorm_cascades.py l.269-287,
    snowstorm_tracks.py l.296-314, snowstorm_track_segment.py l.258-276). *)
Definition frame_snow (a : label_args) (f : dict label_object) (num_events : nat) : result (list (list R)) :=
  let n := snow_params a in
  if (0 <? n)%Z
  then match la_snow_key a with
       | Some key =>
           bind (lookup key f) (fun s =>
           bind (check (Z.eqb (Z.of_nat (frame_length s)) n)) (fun _ =>
           collect (fun i => bind (frame_item s i) (fun c =>
                             bind (check (Nat.eqb (length c) num_events)) (fun _ => Ok c)))
             (seq 0 (Z.to_nat n))))
       | None => Ok (repeat (repeat 1 num_events) (Z.to_nat n))
       end
  else Ok [].

Definition frame_columns (a : label_args) (f : dict label_object) : result (list (list R)) :=
  bind (lookup (la_label_key a) f) (fun labels =>
  bind (collect (frame_label labels) (label_names a)) (fun cols =>
  bind (match la_class a with
        | SnowSegmentLabels =>
            bind (frame_label labels "track_distance_start") (fun start => check (forallb (fun v => Reqb v 0) start))
        | _ => Ok tt
        end) (fun _ =>
  bind (match cols with c :: _ => Ok (length c) | [] => Err IndexError end) (fun num_events =>
  bind (frame_snow a f num_events) (fun snow => Ok (cols ++ snow)))))).

(** [get_data_from_frame] and [create_data_from_frame] (cascades.py l.177-251,
    snowstorm_cascades.py l.239-334, snowstorm_tracks.py l.266-356,
    snowstorm_track_segment.py l.222-314). *)
Definition labels_from_frame (configured : bool) (a : label_args) (f : dict label_object) : result loaded :=
  if negb configured then Err ValueError else finish_loading a (frame_columns a f).
