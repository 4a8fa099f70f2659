(** Model of [DataTensor] and [DataTensorList]
    (/repo/egenerator/data/tensor.py). *)
From Verif Require Import Py.

(** The attributes of a [DataTensor] (tensor.py l.70-81).  Names, types and
    dtypes are strings; all other attributes are arbitrary plain data. *)
Record tensor := mkTensor {
  t_name : string;
  t_shape : value;
  t_type : string;
  t_dtype : string;
  t_exists : value;
  t_vector_info : value;
  t_trafo : value;
  t_reduce_axes : value;
  t_log : value;
  t_log_axis : value;
  t_batch_axis : value;
  t_specs : dict value
}.

(** Parameter names of [DataTensor.__init__] (l.8-12). *)
Definition tensor_params : list string :=
  ["name"; "shape"; "tensor_type"; "dtype"; "exists"; "vector_info"; "trafo";
   "trafo_reduce_axes"; "trafo_log"; "trafo_log_axis"; "trafo_batch_axis"].

(** [seq[i]] for a Python integer index, negative ones counting from the end. *)
Definition py_nth {A} (l : list A) (i : Z) : option A :=
  if (i <? 0)%Z
  then if (Z.of_nat (length l) + i <? 0)%Z then None
       else nth_error l (Z.to_nat (Z.of_nat (length l) + i))
  else nth_error l (Z.to_nat i).

Definition as_seq (v : value) : option (list value) :=
  match v with VList l => Some l | VTuple l => Some l | _ => None end.

Section Tensor.
(** [hasattr(np, dtype)]. *)
Variable np_has : string -> bool.

(** [DataTensor.__init__] (l.8-113) called with keyword arguments [kw].
    A missing required argument is a TypeError.  A name or type that is not a
    string is reported as TypeError here (the code accepts any name; an
    unhashable type raises the same class, others ValueError). *)
Definition tensor_init (kw : dict value) : result tensor :=
  let get k dflt := match dget k kw with Some v => v | None => dflt end in
  match dget "name" kw, dget "shape" kw, dget "tensor_type" kw, dget "dtype" kw with
  | Some (VStr name), Some shape, Some (VStr ty), Some dtype =>
      let exists_ := get "exists" (VBool true) in
      let vinfo := get "vector_info" VNone in
      let trafo := get "trafo" (VBool false) in
      let axes := get "trafo_reduce_axes" (VTuple []) in
      let log := get "trafo_log" VNone in
      let log_axis := get "trafo_log_axis" (VInt (-1)) in
      let batch_axis := get "trafo_batch_axis" (VInt 0) in
      let specs := filter (fun kv => negb (smem (fst kv) tensor_params)) kw in
      (* l.84-86 *)
      match shape with
      | VNone => Err ValueError
      | _ =>
        (* l.88-91; bool is a subclass of int *)
        match numeric log_axis with
        | None => Err ValueError
        | Some ax =>
          (* l.93-94 *)
          if negb (smem ty ["data"; "label"; "weight"; "misc"; "prediction"])
          then Err ValueError
          else match dtype with
          | VStr dt =>
            (* l.99-100 *)
            if negb (np_has dt) then Err ValueError
            else
              (* l.102-105 *)
              match (match vinfo with
                     | VNone => None
                     | VDict d => match dget "type" d with
                                  | None => Some KeyError
                                  | Some (VStr s) => if smem s ["index"; "value"] then None
                                                     else Some ValueError
                                  | Some _ => Some ValueError
                                  end
                     | _ => Some TypeError
                     end) with
              | Some e => Err e
              | None =>
                (* l.108-113 *)
                match (match log with
                       | VBool b =>
                           match as_seq shape with
                           | None => Err TypeError
                           | Some dims =>
                               match py_nth dims ax with
                               | None => Err IndexError
                               | Some VNone => Err ValueError
                               | Some v => match numeric v with
                                           | Some n => Ok (VList (repeat (VBool b) (Z.to_nat n)))
                                           | None => Err TypeError
                                           end
                               end
                           end
                       | v => Ok v
                       end) with
                | Err e => Err e
                | Ok log' =>
                    Ok (mkTensor name shape ty dt exists_ vinfo trafo axes log' log_axis
                          batch_axis specs)
                end
              end
          | _ => Err ValueError
          end
        end
      end
  | _, _, _, _ => Err TypeError
  end.

(** [to_dict] (l.148-160): all attributes in the order of their assignment. *)
Definition to_dict (t : tensor) : dict value :=
  [("name", VStr (t_name t)); ("shape", t_shape t); ("type", VStr (t_type t));
   ("dtype", VStr (t_dtype t)); ("exists", t_exists t); ("vector_info", t_vector_info t);
   ("trafo", t_trafo t); ("trafo_reduce_axes", t_reduce_axes t); ("trafo_log", t_log t);
   ("trafo_log_axis", t_log_axis t); ("trafo_batch_axis", t_batch_axis t);
   ("specs", VDict (t_specs t))].

(** [np.argsort(names)] followed by indexing (l.198-199).  The names are
    pairwise different at this point, so the sorted arrangement is unique and
    insertion sort computes it. *)
Fixpoint insert_by_name (t : tensor) (l : list tensor) : list tensor :=
  match l with
  | [] => [t]
  | u :: l' => if String.leb (t_name t) (t_name u) then t :: l
               else u :: insert_by_name t l'
  end.
Fixpoint sort_by_name (l : list tensor) : list tensor :=
  match l with
  | [] => []
  | t :: l' => insert_by_name t (sort_by_name l')
  end.

(** [len(set(names)) != len(names)] (l.194-196). *)
Fixpoint has_dup (l : list string) : bool :=
  match l with
  | [] => false
  | x :: l' => smem x l' || has_dup l'
  end.

(** A [DataTensorList] (l.201-216). *)
Record tensor_list := mkTL {
  tl_list : list tensor;
  tl_names : list string;
  tl_name_dict : dict nat;               (* _name_dict *)
  tl_index_dict : list (nat * string)    (* _index_dict *)
}.

(** [DataTensorList.__init__] for a list of tensor objects (l.189-216). *)
Definition tensor_list_init (ts : list tensor) : result tensor_list :=
  if has_dup (map t_name ts) then Err ValueError
  else
    let l := sort_by_name ts in
    Ok (mkTL l (map t_name l) (combine (map t_name l) (seq 0 (length l)))
          (combine (seq 0 (length l)) (map t_name l))).

(** [DataTensorList.__init__] for an existing list (l.180-183). *)
Definition tensor_list_copy (tl : tensor_list) : result tensor_list :=
  tensor_list_init (tl_list tl).

(** [get_index] (l.315-328). *)
Definition get_index (tl : tensor_list) (name : string) : result nat :=
  match dget name (tl_name_dict tl) with Some i => Ok i | None => Err KeyError end.

(** [get_name] (l.330-344). *)
Fixpoint nlookup {A} (i : nat) (d : list (nat * A)) : option A :=
  match d with
  | [] => None
  | (j, x) :: d' => if Nat.eqb i j then Some x else nlookup i d'
  end.
Definition get_name (tl : tensor_list) (i : nat) : result string :=
  match nlookup i (tl_index_dict tl) with Some n => Ok n | None => Err KeyError end.

(** [__getitem__] (l.257-271). *)
Definition get_item (tl : tensor_list) (name : string) : result tensor :=
  match get_index tl name with
  | Ok i => match nth_error (tl_list tl) i with Some t => Ok t | None => Err IndexError end
  | Err e => Err e
  end.

(** [serialize] (l.273-281). *)
Definition serialize (tl : tensor_list) : list (dict value) := map to_dict (tl_list tl).

(** One iteration of [deserialize] (l.299-311). *)
Definition deserialize_one (d : dict value) : result tensor :=
  match dget "type" d with
  | None => Err KeyError
  | Some ty =>
      let d1 := dset "tensor_type" ty d in
      match dget "specs" d1 with
      | None => Err KeyError
      | Some (VDict specs) =>
          let d2 := dupdate d1 specs in
          tensor_init (ddel "specs" (ddel "type" d2))
      | Some _ => Err AttributeError
      end
  end.

Fixpoint deserialize_all (ds : list (dict value)) : result (list tensor) :=
  match ds with
  | [] => Ok []
  | d :: ds' =>
      match deserialize_one d with
      | Err e => Err e
      | Ok t => match deserialize_all ds' with
                | Err e => Err e
                | Ok ts => Ok (t :: ts)
                end
      end
  end.

(** [deserialize] (l.283-313).  [DataTensorList(list of dicts)] (l.184-187)
    builds this list and then copies it. *)
Definition deserialize (ds : list (dict value)) : result tensor_list :=
  match deserialize_all ds with
  | Err e => Err e
  | Ok ts => tensor_list_init ts
  end.
Definition tensor_list_from_dicts (ds : list (dict value)) : result tensor_list :=
  match deserialize ds with
  | Err e => Err e
  | Ok tl => tensor_list_copy tl
  end.

End Tensor.
