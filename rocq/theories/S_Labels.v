(** Specification for the loading of labels. *)
From Coq Require Import Reals.
From Verif Require Import Py PyStr RList M_Source S_Source M_Labels.
Open Scope R_scope.

(** Tables are rectangular. *)
Definition Rectangular (n : nat) (t : table) : Prop :=
  (forall k c, dget k (columns t) = Some c -> length c = n) /\ forall i, vector_index t = Some i -> length i = n.
Definition Tables (f : dict table) : Prop := forall k t, dget k f = Some t -> exists n, Rectangular n t.

(** [lab k j] is label [k] of event [j], for all [names] and the [n] events of
    table [key]. *)
Definition Labels (f : dict table) (key : string) (names : list string) (n : nat) (lab : string -> nat -> R) : Prop :=
  exists t, dget key f = Some t /\
  forall k, In k names -> exists c, dget k (columns t) = Some c /\ length c = n /\ forall j, (j < n)%nat -> nth_error c j = Some (lab k j).

(** How often a number occurs. *)
Definition occurrences (i : Z) (l : list Z) : nat := count_occ Z.eq_dec l i.

(** [sn i j] is parameter [i] of event [j]: one, or the entry of the [j]-th row
    of table [key] that has the index [i]; every parameter has one row per
    event. *)
Definition Snow (f : dict table) (key : option string) (p n : nat) (sn : nat -> nat -> R) : Prop :=
  match key with
  | None => forall i j, sn i j = 1
  | Some k =>
      exists t items index, dget k f = Some t /\ dget "item" (columns t) = Some items /\ vector_index t = Some index /\
        index <> [] /\ (forall i, In i index -> (0 <= i < Z.of_nat p)%Z) /\
        forall i, (i < p)%nat -> occurrences (Z.of_nat i) index = n /\
          forall j, (j < n)%nat -> exists q, nth_error index q = Some (Z.of_nat i) /\ occurrences (Z.of_nat i) (firstn q index) = j /\
            nth_error items q = Some (sn i j)
  end.

(** Everything that is needed can be read. *)
Definition Readable (a : label_args) (f : dict table) (n : nat) (lab : string -> nat -> R) (sn : nat -> nat -> R) : Prop :=
  Labels f (la_label_key a) (label_names a) n lab /\
  (la_class a = SnowSegmentLabels -> exists t c, dget (la_label_key a) f = Some t /\ dget "track_distance_start" (columns t) = Some c /\
     Forall (fun v => v = 0) c) /\
  ((0 < snow_params a)%Z -> Snow f (la_snow_key a) (Z.to_nat (snow_params a)) n sn).

(** The labels of an event followed by its systematics parameters. *)
Definition plain_row (a : label_args) (lab : string -> R) (sn : nat -> R) : list R :=
  map lab (label_names a) ++ map sn (seq 0 (Z.to_nat (snow_params a))).

(** Distance between the vertex and the maximum of a shower of an energy. *)
Definition depth (energy : R) : R := Rmax 0 (63207 / 100000 * (101849 / 100000 + 63176 / 100000 * ln (energy + 1 / 1000000))).

Definition cascade_label (i : nat) (what : string) : string := ("cascade_" ++ fmt04 i ++ "_" ++ what)%string.

(** What shifting changes: a cascade flies to its maximum. *)
Definition CascadeMoved (v w : string -> R) : Prop :=
  Flight (v "cascade_x", v "cascade_y", v "cascade_z") (v "cascade_t") (w "cascade_x", w "cascade_y", w "cascade_z") (w "cascade_t")
    (v "cascade_zenith") (v "cascade_azimuth") (depth (v "cascade_energy")) /\
  forall k, ~ In k ["cascade_x"; "cascade_y"; "cascade_z"; "cascade_t"]%string -> w k = v k.

(** The anchor of a track with [n] cascades flies to the maximum of the first
    one; distances are counted from there; the other cascades move to their own
    maximum. *)
Definition TrackMoved (n : nat) (v w : string -> R) : Prop :=
  match n with
  | 0%nat => forall k, w k = v k
  | _ =>
      Flight (v "track_anchor_x", v "track_anchor_y", v "track_anchor_z") (v "track_anchor_time")
        (w "track_anchor_x", w "track_anchor_y", w "track_anchor_z") (w "track_anchor_time")
        (v "zenith") (v "azimuth") (depth (v "cascade_0000_energy")) /\
      w "track_distance_start" = v "track_distance_start" - depth (v "cascade_0000_energy") /\
      w "track_distance_end" = v "track_distance_end" - depth (v "cascade_0000_energy") /\
      (forall i, (1 <= i < n)%nat -> w (cascade_label i "distance") =
         v (cascade_label i "distance") - depth (v "cascade_0000_energy") + depth (v (cascade_label i "energy"))) /\
      forall k, ~ In k ["track_anchor_x"; "track_anchor_y"; "track_anchor_z"; "track_anchor_time"; "track_distance_start"; "track_distance_end"]%string ->
        (forall i, (1 <= i < n)%nat -> k <> cascade_label i "distance") -> w k = v k
  end.

(** The labels after the optional shift. *)
Definition Moved (a : label_args) (v w : string -> R) : Prop :=
  match la_shift a, la_class a with
  | VBool true, (CascadeLabels | SnowCascadeLabels) => CascadeMoved v w
  | VBool true, SnowTrackLabels => TrackMoved (Z.to_nat (la_cascades a)) v w
  | _, _ => forall k, w k = v k
  end.

(** The labels of a frame. *)
Definition FrameLabels (f : dict label_object) (key : string) (names : list string) (lab : string -> R) : Prop :=
  exists m, dget key f = Some (LMap m) /\ forall k, In k names -> dget k m = Some (lab k).
Definition FrameReadable (a : label_args) (f : dict label_object) (lab : string -> R) (sn : nat -> R) : Prop :=
  FrameLabels f (la_label_key a) (label_names a) lab /\
  (la_class a = SnowSegmentLabels -> exists m, dget (la_label_key a) f = Some (LMap m) /\ dget "track_distance_start" m = Some 0) /\
  ((0 < snow_params a)%Z ->
   match la_snow_key a with
   | None => forall i, sn i = 1
   | Some k => exists v, dget k f = Some (LVector v) /\ Z.of_nat (length v) = snow_params a /\
                 forall i, (i < length v)%nat -> nth_error v i = Some (sn i)
   end).

(** The vectors of the events one after the other, with their indices. *)
Definition Grouped (t : table) (p : nat) (vectors : list (list R)) : Prop :=
  dget "item" (columns t) = Some (concat vectors) /\
  vector_index t = Some (concat (map (fun _ => map Z.of_nat (seq 0 p)) vectors)) /\ Forall (fun v => length v = p) vectors.

(** File [f] contains the frames of some events. *)
Definition Together (a : label_args) (f : dict table) (frames : list (dict label_object)) (lab : nat -> string -> R) (sn : nat -> nat -> R) : Prop :=
  (forall j fr, nth_error frames j = Some fr -> FrameReadable a fr (lab j) (sn j)) /\
  (exists t, dget (la_label_key a) f = Some t /\
     (forall k, In k (label_names a) -> dget k (columns t) = Some (map (fun j => lab j k) (seq 0 (length frames)))) /\
     (la_class a = SnowSegmentLabels -> dget "track_distance_start" (columns t) = Some (map (fun _ => 0) (seq 0 (length frames))))) /\
  forall k, (0 < snow_params a)%Z -> la_snow_key a = Some k ->
    exists t, dget k f = Some t /\
      Grouped t (Z.to_nat (snow_params a)) (map (fun j => map (sn j) (seq 0 (Z.to_nat (snow_params a)))) (seq 0 (length frames))).

(** The same arguments with another choice of shifting. *)
Definition with_shift (b : bool) (a : label_args) : label_args :=
  {| la_class := la_class a; la_config_data := la_config_data a; la_shift := VBool b; la_log := la_log a; la_precision := la_precision a;
     la_label_key := la_label_key a; la_additional := la_additional a; la_cascades := la_cascades a; la_snow_key := la_snow_key a;
     la_num_snow := la_num_snow a |}.

(** The same arguments for another class, or with another list of tensors. *)
Definition with_class (c : label_class) (a : label_args) : label_args :=
  {| la_class := c; la_config_data := la_config_data a; la_shift := la_shift a; la_log := la_log a; la_precision := la_precision a;
     la_label_key := la_label_key a; la_additional := la_additional a; la_cascades := la_cascades a; la_snow_key := la_snow_key a;
     la_num_snow := la_num_snow a |}.
Definition with_config_data (g : option M_Tensor.tensor_list) (a : label_args) : label_args :=
  {| la_class := la_class a; la_config_data := g; la_shift := la_shift a; la_log := la_log a; la_precision := la_precision a;
     la_label_key := la_label_key a; la_additional := la_additional a; la_cascades := la_cascades a; la_snow_key := la_snow_key a;
     la_num_snow := la_num_snow a |}.
