(** Specification vocabulary for combined configurations, stated without the
    model of the setup manager (only its representation of objects in memory
    is used). *)
From Verif Require Import Py.
From Verif Require M_Setup.
Notation cell := M_Setup.cell.
Notation heap := M_Setup.heap.
Notation Plain := M_Setup.Plain.
Notation Ref := M_Setup.Ref.

(** ** Templates *)

(** No curly bracket occurs. *)
Definition no_brace (s : string) : Prop :=
  ~ In "{"%char (list_ascii_of_string s) /\
  ~ In "}"%char (list_ascii_of_string s).

(** Only digits (in particular the empty name). *)
Definition number_name (s : string) : Prop :=
  Forall (fun c => In c (list_ascii_of_string "0123456789"))
         (list_ascii_of_string s).

(** [template s names]: [s] is a valid template with these placeholders. *)
Inductive template : string -> list string -> Prop :=
| T_nil : template "" []
| T_open s l : template s l -> template (String "{" (String "{" s)) l
| T_close s l : template s l -> template (String "}" (String "}" s)) l
| T_char c s l : c <> "{"%char -> c <> "}"%char ->
    template s l -> template (String c s) l
| T_hole n s l : no_brace n -> template s l ->
    template (String "{" (n ++ String "}" s)) (n :: l).

(** [renders text vals s t]: replacing every placeholder of [s] by the text
    of its value in [vals] gives [t]. *)
Section Renders.
  Variable text : value -> string.
  Variable vals : string -> option value.
  Inductive renders : string -> string -> Prop :=
  | R_nil : renders "" ""
  | R_open s t : renders s t ->
      renders (String "{" (String "{" s)) (String "{" t)
  | R_close s t : renders s t ->
      renders (String "}" (String "}" s)) (String "}" t)
  | R_char c s t : c <> "{"%char -> c <> "}"%char ->
      renders s t -> renders (String c s) (String c t)
  | R_hole n v s t : no_brace n -> ~ number_name n -> vals n = Some v ->
      renders s t ->
      renders (String "{" (n ++ String "}" s)) (text v ++ t).
End Renders.

(** The text of a value: itself for strings. *)
Definition text_of (show : value -> string) (v : value) : string :=
  match v with VStr s => s | _ => show v end.

(** ** Values with strings at paths *)

Inductive leaf : value -> list string -> string -> Prop :=
| leaf_here s : leaf (VStr s) [] s
| leaf_sub d k v p s : In (k, v) d -> leaf v p s -> leaf (VDict d) (k :: p) s.

(** Equal up to the contents of strings which are not inside lists. *)
Inductive same_shape : value -> value -> Prop :=
| sh_str s t : same_shape (VStr s) (VStr t)
| sh_dict d e :
    Forall2 (fun a b => fst a = fst b /\ same_shape (snd a) (snd b)) d e ->
    same_shape (VDict d) (VDict e)
| sh_none : same_shape VNone VNone
| sh_bool b : same_shape (VBool b) (VBool b)
| sh_int z : same_shape (VInt z) (VInt z)
| sh_list l : same_shape (VList l) (VList l)
| sh_tuple l : same_shape (VTuple l) (VTuple l).

(** ** Repeated assignments *)

(** The keys in the order of their first assignment. *)
Fixpoint uniq (l : list string) : list string :=
  match l with
  | [] => []
  | x :: l' => x :: filter (fun y => negb (String.eqb x y)) (uniq l')
  end.

(** The value of the last assignment to a key. *)
Fixpoint last_value (k : string) (l : list (string * value))
  : option value :=
  match l with
  | [] => None
  | (k', v) :: l' =>
      match last_value k l' with
      | Some w => Some w
      | None => if String.eqb k k' then Some v else None
      end
  end.

(** The dictionary [raw] is the outcome of a sequence of assignments. *)
Definition outcome (l : list (string * value)) (raw : dict value) : Prop :=
  map fst raw = uniq (map fst l) /\
  forall k, dget k raw = last_value k l.

(** The settings every configuration starts with. *)
Definition defaults : list (string * value) :=
  [("float_precision", VStr "float32")].

(** The settings which are determined automatically, in this order. *)
Definition automatic (tfp npp : value) (short_sha sha origin : string)
  (uncommitted : bool) (packages : value) (name dir : string)
  : list (string * value) :=
  [("tf_float_precision", tfp); ("np_float_precision", npp);
   ("git_short_sha", VStr short_sha); ("git_sha", VStr sha);
   ("git_origin", VStr origin);
   ("git_uncommited_changes", VBool uncommitted);
   ("pip_installed_packages", packages);
   ("config_name", VStr name); ("egenerator_dir", VStr dir)].

(** A template whose placeholders are among the given names. *)
Definition good (names : list string) (s : string) : Prop :=
  exists l, template s l /\
    Forall (fun n => ~ number_name n /\ In n names) l.

(** No top level key occurs in both. *)
Definition no_common_key (d e : dict value) : Prop :=
  forall k, In k (map fst d) -> In k (map fst e) -> False.

Definition joined (stems : list string) : string := String.concat "__" stems.

(** [f] is a path to a file [stem.yaml]; the stem contains no dot. *)
Definition yaml_path (f stem : string) : Prop :=
  ~ In "/"%char (list_ascii_of_string stem) /\
  ~ In "."%char (list_ascii_of_string stem) /\
  (f = stem ++ ".yaml" \/ exists d, f = d ++ "/" ++ stem ++ ".yaml")%string.

(** The stem of any path: the part after the last slash without any of the
    occurrences of [.yaml] in it. *)
Definition contains (w s : string) : Prop := exists a b, s = (a ++ w ++ b)%string.
Definition stem_of_path (f stem : string) : Prop :=
  exists base parts,
    (f = base \/ exists d, f = (d ++ "/" ++ base)%string) /\
    ~ In "/"%char (list_ascii_of_string base) /\
    base = String.concat ".yaml" parts /\ stem = String.concat "" parts /\
    parts <> [] /\ Forall (fun p => ~ contains ".yaml" p) parts.

(** ** Objects in memory *)

(** [reads h a v]: reading the object at address [a] yields [v]. *)
Inductive reads (h : heap) : nat -> value -> Prop :=
| reads_obj a d e : nth_error h a = Some d -> reads_entries h d e ->
    reads h a (VDict e)
with reads_entries (h : heap) : dict cell -> dict value -> Prop :=
| re_nil : reads_entries h [] []
| re_plain k v d e : reads_entries h d e ->
    reads_entries h ((k, Plain v) :: d) ((k, v) :: e)
| re_ref k b v d e : reads h b v -> reads_entries h d e ->
    reads_entries h ((k, Ref b) :: d) ((k, v) :: e).

(** [reach h a b]: [b] can be reached by following references from [a]. *)
Inductive reach (h : heap) : nat -> nat -> Prop :=
| reach_here a : reach h a a
| reach_step a d k b c : nth_error h a = Some d -> In (k, Ref b) d ->
    reach h b c -> reach h a c.

(** All references point to existing objects. *)
Definition closed_heap (h : heap) : Prop :=
  forall a d k b, nth_error h a = Some d -> In (k, Ref b) d -> b < length h.

(** [h'] results from [h] by changing only objects which can be reached from
    [a], and by creating new objects. *)
Definition changed_from (h : heap) (a : nat) (h' : heap) : Prop :=
  length h <= length h' /\
  forall x, x < length h -> ~ reach h a x -> nth_error h' x = nth_error h x.
