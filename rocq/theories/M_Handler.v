(** Model of the data handler: the reading and writing of data by
    /repo/egenerator/data/handler/modular.py (l.106-230, 287-425, 516-609) and
    /repo/egenerator/data/handler/base.py (l.59-154, 204-492), and the modules
    without tensors (data/modules/{labels,misc,weights}/dummy.py).
    Filtering is [filter_data] of M_Batch, tensor lists are those of M_Tensor. *)
From Verif Require Import Py M_Tensor M_Batch.

(** Truth value of plain data ([if tensor.exists]). *)
Definition truthy (v : value) : bool :=
  match v with
  | VNone => false
  | VBool b => b
  | VInt z => negb (Z.eqb z 0)
  | VStr s => negb (String.eqb s "")
  | VList l | VTuple l => match l with [] => false | _ => true end
  | VDict d => match d with [] => false | _ => true end
  end.

(** The four modules that hold tensors (modular.py l.46-91), in the order in
    which they are asked for data (l.320-349). *)
Inductive part := PData | PLabel | PMisc | PWeight.

(** The type of a tensor names its module (l.381-399); a tensor of another type
    ("prediction") has none. *)
Definition part_of_type (ty : string) : option part :=
  if String.eqb ty "data" then Some PData
  else if String.eqb ty "label" then Some PLabel
  else if String.eqb ty "misc" then Some PMisc
  else if String.eqb ty "weight" then Some PWeight
  else None.

(** The attributes of a handler that reading and writing look at: whether it
    is configured and the tensor lists in its data (modular.py l.46-91). *)
Record handler := mkHandler {
  h_configured : bool;
  h_data : tensor_list;
  h_label : tensor_list;
  h_misc : tensor_list;
  h_weight : tensor_list;
  h_tensors : tensor_list
}.

Definition part_tensors (h : handler) (p : part) : tensor_list :=
  match p with
  | PData => h_data h
  | PLabel => h_label h
  | PMisc => h_misc h
  | PWeight => h_weight h
  end.

Section Handler.
Variable V : Type.
Notation tdata := (tdata V).

(** [values.shape]; None if there is no such attribute (a Python list). *)
Variable np_shape : tdata -> option (list Z).

(** What a module returns for a file or frame: a number of events or None, and
    a sequence of entries or None. *)
Definition answer := (option nat * option (list (option tdata)))%type.

(** The function called [fname] of module [p] applied to the given file or
    frame. *)
Variable read : part -> string -> result answer.

(** The function called [fname] of the filter module for the given file or
    frame, the number of events and the batch. *)
Variable fmask : string -> nat -> batch V -> result (list bool).

(** The functions of the modules and of the filter for each method
    (modular.py l.315-349, 407-414). *)
Definition read_name (method : string) : option (string * string) :=
  if String.eqb method "get_from_hdf"
  then Some ("get_data_from_hdf", "get_event_filter_mask_from_hdf")
  else if String.eqb method "get_from_frame"
  then Some ("get_data_from_frame", "get_event_filter_mask_from_frame")
  else if String.eqb method "create_from_frame"
  then Some ("create_data_from_frame", "get_event_filter_mask_from_frame")
  else None.

(** Asking all modules (l.320-349). *)
Definition read_all (fname : string) : result (part -> answer) :=
  bind (read PData fname) (fun d =>
  bind (read PLabel fname) (fun l =>
  bind (read PMisc fname) (fun m =>
  bind (read PWeight fname) (fun w =>
  Ok (fun p => match p with PData => d | PLabel => l | PMisc => m | PWeight => w end))))).

Definition is_none {A} (o : option A) : bool := match o with None => true | _ => false end.

(** A module with tensors found a problem (l.351-361). *)
Definition problem (h : handler) (rs : part -> answer) (p : part) : bool :=
  Nat.ltb 0 (length (tl_list (part_tensors h p))) &&
  (is_none (fst (rs p)) && is_none (snd (rs p))).

Definition found_problem (h : handler) (rs : part -> answer) : bool :=
  problem h rs PData || problem h rs PLabel || problem h rs PMisc || problem h rs PWeight.

(** [check_num_events] (l.370-375). *)
Definition check_num (num_events num : option nat) : result (option nat) :=
  match num_events with
  | None => Ok num
  | Some n => match num with
              | Some m => if Nat.eqb n m then Ok (Some n) else Err ValueError
              | None => Err ValueError
              end
  end.

(** [data[self.data_tensors.get_index(tensor.name)]] and the like (l.384, 389,
    394, 399). *)
Definition entry (tl : tensor_list) (name : string) (data : option (list (option tdata)))
  : result (option tdata) :=
  bind (get_index tl name) (fun i =>
  match data with
  | None => Err TypeError
  | Some l => match nth_error l i with Some x => Ok x | None => Err IndexError end
  end).

(** The loop combining the entries of the modules (l.377-401).  A tensor of a
    type without module adds nothing. *)
Fixpoint combine_entries (h : handler) (rs : part -> answer) (ts : list tensor)
  (num_events : option nat) (event_batch : batch V) : result (option nat * batch V) :=
  match ts with
  | [] => Ok (num_events, event_batch)
  | t :: rest =>
      if truthy (t_exists t)
      then match part_of_type (t_type t) with
           | Some p =>
               bind (check_num num_events (fst (rs p))) (fun num_events =>
               bind (entry (part_tensors h p) (t_name t) (snd (rs p))) (fun x =>
               combine_entries h rs rest num_events (event_batch ++ [x])))
           | None => combine_entries h rs rest num_events event_batch
           end
      else combine_entries h rs rest num_events (event_batch ++ [None])
  end.

(** How filtering treats a tensor (l.460-511, tensor.py l.29-42). *)
Definition kind_of (tl : tensor_list) (t : tensor) : result tkind :=
  match t_vector_info t with
  | VNone => Ok TEvent
  | VDict d =>
      match dget "type" d with
      | Some (VStr "value") => Ok TValue
      | Some (VStr "index") =>
          match dget "reference" d with
          | Some (VStr r) => bind (get_index tl r) (fun i => Ok (TIndex i))
          | _ => Err KeyError
          end
      | _ => Err KeyError
      end
  | _ => Err TypeError
  end.

Fixpoint kinds_of (tl : tensor_list) (ts : list tensor) : result (list tkind) :=
  match ts with
  | [] => Ok []
  | t :: rest => bind (kind_of tl t) (fun k => bind (kinds_of tl rest) (fun ks => Ok (k :: ks)))
  end.

(** [_get_data] (l.287-425); [Ok None] is the result [(None, None)].  The
    references of all index tensors are looked up before filtering starts (the
    code looks up each one when it comes to its tensor). *)
Definition get_data (h : handler) (method : string) : result (option (nat * batch V)) :=
  match read_name method with
  | None => Err ValueError
  | Some (fname, gname) =>
      bind (read_all fname) (fun rs =>
      if found_problem h rs then Ok None
      else
        bind (combine_entries h rs (tl_list (h_tensors h)) None []) (fun r =>
        match fst r with
        | None => Err ValueError
        | Some n =>
            bind (fmask gname n (snd r)) (fun mask =>
            bind (if forallb (fun b => b) mask then Ok (n, snd r)
                  else bind (kinds_of (h_tensors h) (tl_list (h_tensors h))) (fun kinds =>
                       filter_data V kinds mask n (snd r))) (fun f =>
            if Nat.eqb (fst f) 0 then Ok None else Ok (Some f)))
        end))
  end.

(** [_get_data_from_hdf], [_get_data_from_frame] and [_create_data_from_frame]
    (l.516-578).  An additional positional argument takes the place of
    [method], which is given by name as well. *)
Definition get_data_args (h : handler) (method : string) (extra : nat)
  : result (option (nat * batch V)) :=
  match extra with
  | 0 => get_data h method
  | S _ => Err TypeError
  end.

(** The inner loop of [_check_data_structure] (base.py l.239-243). *)
Fixpoint dims_match (s1 : list Z) (s2 : list value) : bool :=
  match s1, s2 with
  | x :: s1', y :: s2' =>
      match y with
      | VNone => dims_match s1' s2'
      | _ => veqb (VInt x) y && dims_match s1' s2'
      end
  | _, _ => true
  end.

(** One tensor of [_check_data_structure] (l.232-248). *)
Definition check_one (t : tensor) (x : option tdata) : result unit :=
  if truthy (t_exists t) && (match t_vector_info t with VNone => true | _ => false end)
  then match x with
       | None => Err AttributeError
       | Some d =>
           match np_shape d with
           | None => Err AttributeError
           | Some s1 =>
               match as_seq (t_shape t) with
               | None => Err TypeError
               | Some s2 =>
                   if negb (Nat.eqb (length s1) (length s2)) then Err ValueError
                   else if dims_match s1 s2 then Ok tt else Err ValueError
               end
           end
       end
  else Ok tt.

Fixpoint check_all (ts : list tensor) (data : batch V) : result unit :=
  match ts, data with
  | t :: ts', x :: data' => bind (check_one t x) (fun _ => check_all ts' data')
  | _, _ => Ok tt
  end.

(** [_check_data_structure] (l.204-248). *)
Definition check_data_structure (h : handler) (data : batch V) (check_vector : bool) : result unit :=
  if check_vector then Err NotImplementedError
  else if negb (Nat.eqb (length data) (length (tl_list (h_tensors h)))) then Err ValueError
  else check_all (tl_list (h_tensors h)) data.

(** What [get_data_from_hdf] (l.250-277) and [create_data_from_frame]
    (l.410-434) do with the data of the derived class. *)
Definition checked_data (h : handler) (method : string) (extra : nat)
  : result (option (nat * batch V)) :=
  if negb (h_configured h) then Err ValueError
  else bind (get_data_args h method extra) (fun r =>
       match r with
       | None => Ok None
       | Some (n, data) => bind (check_data_structure h data false) (fun _ => Ok (Some (n, data)))
       end).

Definition get_data_from_hdf (h : handler) := checked_data h "get_from_hdf".
Definition create_data_from_frame (h : handler) := checked_data h "create_from_frame".

(** Entries of the tuple returned for a frame: the data of a tensor, or the
    zero of the type of a tensor that does not exist. *)
Inductive item := IData (x : option tdata) | IZero (dtype : string).

(** The loop of [get_data_from_frame] (l.334-339). *)
Fixpoint frame_items (ts : list tensor) (data : batch V) (i : nat) : result (list item) :=
  match ts with
  | [] => Ok []
  | t :: rest =>
      bind (if truthy (t_exists t)
            then match nth_error data i with Some x => Ok (IData x) | None => Err IndexError end
            else Ok (IZero (t_dtype t))) (fun x =>
      bind (frame_items rest data (S i)) (fun xs => Ok (x :: xs)))
  end.

(** [get_data_from_frame] (l.303-341). *)
Definition get_data_from_frame (h : handler) (extra : nat) : result (option (nat * list item)) :=
  bind (checked_data h "get_from_frame" extra) (fun r =>
  match r with
  | None => Ok None
  | Some (n, data) =>
      bind (frame_items (tl_list (h_tensors h)) data 0) (fun items => Ok (Some (n, items)))
  end).

(** The loop of [convert_data_to_tensor] (l.368-387); None stands for data that
    is None.  A missing entry cannot be converted (ValueError). *)
Fixpoint convert_items (ts : list tensor) (data : option (list item)) (i : nat) : result (list item) :=
  match ts with
  | [] => Ok []
  | t :: rest =>
      bind (if truthy (t_exists t)
            then match data with
                 | None => Err TypeError
                 | Some l => match nth_error l i with
                             | None => Err IndexError
                             | Some (IData None) => Err ValueError
                             | Some x => Ok x
                             end
                 end
            else Ok (IZero (t_dtype t))) (fun x =>
      bind (convert_items rest data (S i)) (fun xs => Ok (x :: xs)))
  end.

(** [get_tensor_from_frame] (l.343-366). *)
Definition get_tensor_from_frame (h : handler) (extra : nat) : result (list item) :=
  bind (get_data_from_frame h extra) (fun r =>
  convert_items (tl_list (h_tensors h)) (match r with None => None | Some (_, l) => Some l end) 0).

(** The entries of the tensors of type [ty] (modular.py l.602-606). *)
Fixpoint entries_of_type {A} (ty : string) (ts : list tensor) (data : list A) (i : nat)
  : result (list A) :=
  match ts with
  | [] => Ok []
  | t :: rest =>
      if String.eqb (t_type t) ty
      then match nth_error data i with
           | None => Err IndexError
           | Some x => bind (entries_of_type ty rest data (S i)) (fun xs => Ok (x :: xs))
           end
      else entries_of_type ty rest data (S i)
  end.

(** What [write_data_to_frame] (base.py l.457-474, modular.py l.580-609) hands
    to the function [write_data_to_frame] of each module, in the order of the
    calls; the modules themselves do not raise. *)
Definition write_data {A} (h : handler) (data : list A) : result (list (part * list A)) :=
  if negb (h_configured h) then Err ValueError
  else
    let ts := tl_list (h_tensors h) in
    bind (entries_of_type "data" ts data 0) (fun d =>
    bind (entries_of_type "label" ts data 0) (fun l =>
    bind (entries_of_type "misc" ts data 0) (fun m =>
    bind (entries_of_type "weight" ts data 0) (fun w =>
    Ok [(PData, d); (PLabel, l); (PMisc, m); (PWeight, w)])))).

(** ** Describing the data to TensorFlow *)

(** The shape of a tensor in the description (base.py l.1116-1121 and
    l.1141-1147): None is an unknown shape. *)
Definition spec_shape (t : tensor) : option value :=
  if truthy (t_exists t) then Some (t_shape t) else None.

(** [get_data_set_signature] (l.1132-1148): shapes and types. *)
Definition signature (h : handler) : list (option value * string) :=
  map (fun t => (spec_shape t, t_dtype t)) (tl_list (h_tensors h)).

End Handler.

(** ** Configuration *)

(** The argument [config_data] (base.py l.70, 134-141). *)
Inductive cdata := CNone | CStr (s : string) | CList (l : list string) | COther.

(** An entry of the data of a component: a tensor list or something else. *)
Inductive ddata := DTensors (tl : tensor_list) | DOther.

(** The function [configure] of a module class: from [config_data] (None or a
    list of files) and settings to the data of the component. *)
Definition modclass := option (list string) -> dict value -> result (dict ddata).

(** The modules without tensors: labels/dummy.py l.13-67, misc/dummy.py
    l.13-67, weights/dummy.py l.13-67.  They take no settings and reject
    [config_data] that is neither None, a string nor a tensor list. *)
Definition dummy_module (key : string) : modclass :=
  fun cd kw =>
  match kw with
  | _ :: _ => Err TypeError
  | [] => match cd with
          | Some _ => Err ValueError
          | None => bind (tensor_list_init []) (fun tl => Ok [(key, DTensors tl)])
          end
  end.

(** The filter that accepts all events (filters/dummy.py l.27-72). *)
Definition dummy_filter : modclass := fun _ _ => Ok [].

Section Configure.
(** [glob.glob] *)
Variable glob : string -> list string.
(** [misc.load_class] *)
Variable load : string -> result modclass.

(** [config_data] as the modules get it (base.py l.134-141). *)
Definition expand_config_data (cd : cdata) : result (option (list string)) :=
  match cd with
  | CNone => Ok None
  | CStr s => Ok (Some (glob s))
  | CList l => Ok (Some (concat (map glob (firstn 3 l))))
  | COther => Err TypeError
  end.

(** Loading the class of one module (modular.py l.121-144). *)
Definition load_module (config : dict value) (dir name : string) : result modclass :=
  match dget (name ++ "_module")%string config with
  | None => Err KeyError
  | Some (VStr s) => load ("egenerator.data.modules." ++ dir ++ "." ++ s)%string
  | Some _ => Err TypeError
  end.

(** [_load_modules] (l.106-147) for a handler whose modules are not loaded
    yet. *)
Definition load_modules (config : dict value) : result (list (string * modclass)) :=
  bind (load_module config "data" "data") (fun d =>
  bind (load_module config "labels" "label") (fun l =>
  bind (load_module config "weights" "weight") (fun w =>
  bind (load_module config "misc" "misc") (fun m =>
  bind (load_module config "filters" "filter") (fun f =>
  Ok [("data", d); ("label", l); ("weight", w); ("misc", m); ("filter", f)]))))).

(** The loop configuring the modules (l.206-210). *)
Fixpoint configure_modules (config : dict value) (cd : option (list string))
  (mods : list (string * modclass)) (data : dict ddata) : result (dict ddata) :=
  match mods with
  | [] => Ok data
  | (name, c) :: rest =>
      match dget (name ++ "_settings")%string config with
      | None => Err KeyError
      | Some (VDict kw) =>
          if dmem "config_data" kw then Err TypeError
          else bind (c cd kw) (fun new => configure_modules config cd rest (dupdate data new))
      | Some _ => Err TypeError
      end
  end.

(** [data['..._tensors'].list] (l.213-215). *)
Definition tensors_in (data : dict ddata) (key : string) : result (list tensor) :=
  match dget key data with
  | None => Err KeyError
  | Some (DTensors tl) => Ok (tl_list tl)
  | Some DOther => Err AttributeError
  end.

(** The combined list (l.212-215). *)
Definition combine_tensors (data : dict ddata) : result (dict ddata) :=
  bind (tensors_in data "data_tensors") (fun d =>
  bind (tensors_in data "label_tensors") (fun l =>
  bind (tensors_in data "weight_tensors") (fun w =>
  bind (tensors_in data "misc_tensors") (fun m =>
  bind (tensor_list_init (d ++ l ++ w ++ m)) (fun tl =>
  Ok (dset "tensors" (DTensors tl) data)))))).

(** What a handler remembers between attempts to configure it:
    [is_configured] and [modules_are_loaded]. *)
Record hstate := mkState { s_configured : bool; s_loaded : bool }.

(** [_configure] (base.py l.70-154) with [_configure_derived_class]
    (modular.py l.149-230): the new state and the data of the component.  The
    configuration object built at the end is part of M_Component. *)
Definition configure (st : hstate) (config : dict value) (cd : cdata)
  : hstate * result (dict ddata) :=
  if s_configured st then (st, Err ValueError)
  else
    match expand_config_data cd with
    | Err e => (st, Err e)
    | Ok cd' =>
        if s_loaded st then (st, Err ValueError)
        else
          match load_modules config with
          | Err e => (st, Err e)
          | Ok mods =>
              match bind (configure_modules config cd' mods []) combine_tensors with
              | Err e => (mkState false true, Err e)
              | Ok data => (mkState true true, Ok data)
              end
          end
    end.

End Configure.

(** The handler with the given data (modular.py l.46-91). *)
Definition handler_of (data : dict ddata) : option handler :=
  match dget "data_tensors" data, dget "label_tensors" data, dget "misc_tensors" data,
        dget "weight_tensors" data, dget "tensors" data with
  | Some (DTensors d), Some (DTensors l), Some (DTensors m), Some (DTensors w),
    Some (DTensors t) => Some (mkHandler true d l m w t)
  | _, _, _, _, _ => None
  end.
