(** Specification vocabulary for the data handler. *)
From Verif Require Import Py M_Tensor M_Batch S_Batch M_Handler.

(** The type that the tensors of a module carry. *)
Definition type_name (p : part) : string :=
  match p with PData => "data" | PLabel => "label" | PMisc => "misc" | PWeight => "weight" end.

(** [tl] was built by the constructor of tensor lists. *)
Definition Built (tl : tensor_list) : Prop := exists ts, tensor_list_init ts = Ok tl.

(** The tensors of a handler are those of its four modules. *)
Definition Consistent (h : handler) : Prop :=
  (forall p, Built (part_tensors h p)) /\ Built (h_tensors h) /\
  Permutation (tl_list (h_tensors h))
    (tl_list (h_data h) ++ tl_list (h_label h) ++ tl_list (h_weight h) ++ tl_list (h_misc h)).

(** Every module declares tensors of its own type only. *)
Definition Typed (h : handler) : Prop :=
  forall p t, In t (tl_list (part_tensors h p)) -> t_type t = type_name p.

Definition Exists (t : tensor) : Prop := truthy (t_exists t) = true.

(** Module [p] has a tensor that exists. *)
Definition Has (h : handler) (p : part) : Prop :=
  exists t, In t (tl_list (part_tensors h p)) /\ Exists t.

(** The functions called for a method. *)
Inductive Calls : string -> string -> string -> Prop :=
| calls_hdf : Calls "get_from_hdf" "get_data_from_hdf" "get_event_filter_mask_from_hdf"
| calls_frame : Calls "get_from_frame" "get_data_from_frame" "get_event_filter_mask_from_frame"
| calls_create : Calls "create_from_frame" "create_data_from_frame"
                   "get_event_filter_mask_from_frame".

(** What a tensor says about its storage. *)
Definition KindOf (h : handler) (t : tensor) (k : tkind) : Prop :=
  match k with
  | TEvent => t_vector_info t = VNone
  | TValue => exists d, t_vector_info t = VDict d /\ dget "type" d = Some (VStr "value")
  | TIndex i => exists d r u, t_vector_info t = VDict d /\ dget "type" d = Some (VStr "index") /\
                  dget "reference" d = Some (VStr r) /\
                  nth_error (tl_list (h_tensors h)) i = Some u /\ t_name u = r
  end.

(** Dimensions [s] agree with the declared ones; None is any size. *)
Definition Fits (s : list Z) (dims : list value) : Prop :=
  length s = length dims /\
  forall k x v, nth_error s k = Some x -> nth_error dims k = Some v -> v <> VNone ->
    veqb (VInt x) v = true.

Section Spec.
Variable V : Type.
Variable np_shape : tdata V -> option (list Z).
Notation answer := (answer V).

(** The combined data: position [i] belongs to tensor [i] of the handler and
    holds what its module delivered for it; nothing for a tensor that does not
    exist. *)
Definition Combined (h : handler) (rs : part -> answer) (b : batch V) : Prop :=
  length b = length (tl_list (h_tensors h)) /\
  forall i t, nth_error (tl_list (h_tensors h)) i = Some t ->
    (~ Exists t -> nth_error b i = Some None) /\
    (Exists t -> forall p j, nth_error (tl_list (part_tensors h p)) j = Some t ->
       exists l x, snd (rs p) = Some l /\ nth_error l j = Some x /\ nth_error b i = Some x).

(** Every module with an existing tensor delivers a number of events and an
    entry for each of its tensors. *)
Definition Answers (h : handler) (rs : part -> answer) : Prop :=
  forall p, Has h p -> exists n l, rs p = (Some n, Some l) /\
                         length l = length (tl_list (part_tensors h p)).

(** Module [p] has tensors but could not deliver. *)
Definition Missing (h : handler) (rs : part -> answer) (p : part) : Prop :=
  tl_list (part_tensors h p) <> [] /\ rs p = (None, None).

(** Existing tensors along the event axis are arrays of the declared shape. *)
Definition WellShaped (h : handler) (b : batch V) : Prop :=
  length b = length (tl_list (h_tensors h)) /\
  forall i t, nth_error (tl_list (h_tensors h)) i = Some t -> Exists t -> t_vector_info t = VNone ->
    exists d s dims, nth_error b i = Some (Some d) /\ np_shape d = Some s /\
      as_seq (t_shape t) = Some dims /\ Fits s dims.

(** The tuple for a frame made of the batch [b]. *)
Definition Itemised (h : handler) (b : batch V) (items : list (item V)) : Prop :=
  length items = length (tl_list (h_tensors h)) /\
  forall i t, nth_error (tl_list (h_tensors h)) i = Some t ->
    (Exists t -> exists x, nth_error b i = Some x /\ nth_error items i = Some (IData V x)) /\
    (~ Exists t -> nth_error items i = Some (IZero V (t_dtype t))).

End Spec.
