(** What a user expects of segments of tracks. *)
From Coq Require Import Reals.
From Verif Require Import Py RList M_Source S_Source M_Basis M_Segment.
Open Scope R_scope.

(** The point of the track, from its start (0) to its end ([len]), next to the
    position [d] on the infinite line *)
Definition clamp (len d : R) : R := Rmax 0 (Rmin d len).

(** The point at distance [s] from [v] along [u] *)
Definition along (v u : point) (s : R) : point := let '(x, y, z) := v in let '(a, b, c) := u in (x + s * a, y + s * b, z + s * c).
Definition away (p q : point) : R := sqrt (norm2 (minus p q)).

(** [d] is the distance of [p] from the track. *)
Definition TrackDistance (p v u : point) (len d : R) : Prop :=
  (exists s, 0 <= s <= len /\ away p (along v u s) = d) /\
  forall s, 0 <= s <= len -> d <= away p (along v u s).

(** The foot of the perpendicular from [p] on the infinite line is at [a]. *)
Definition Foot (p v u : point) (a : R) : Prop := dot (minus p (along v u a)) u = 0.

(** Light emitted at [k] under the Cherenkov angle reaches [p]; the cosine of the
    angle is one over the refractive index. *)
Definition CherenkovFrom (p v u : point) (k : R) : Prop :=
  dot (minus p (along v u k)) u = away p (along v u k) / (13195 / 10000).

(** Number of parameters of the source *)
Definition segment_parameters (h : segment_config) : nat :=
  (9 + match h_snowstorm h with Some l => list_sum (map snd l) | None => 0 end)%nat.

(** Vertex, flight direction, length and energy of a row *)
Definition vertex (row : list R) : point := (nth 0 row 0, nth 1 row 0, nth 2 row 0).
Definition flight (row : list R) : point := scale (-1) (origin (nth 3 row 0) (nth 4 row 0)).
