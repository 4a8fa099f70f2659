(** Model of sources that consist of several sources
    (/repo/egenerator/model/multi_source/base.py l.247-423, independent.py
    l.25-96, track/stochastic_track.py l.23-201, muon/default.py l.23-147).

    Simplification: one event; the code treats the events of a batch separately
    and identically.  Shape checks of the charges (l.357-376) are left out. *)
From Coq Require Import Reals.
From Verif Require Import Py PyStr RList M_Train.
Open Scope R_scope.

(** String and DOM. *)
Definition cell := (nat * nat)%type.

(** Result of [get_tensors] of a source: expected charges, their variances, the
    excluded fraction of the time distribution for every DOM and the density at
    every pulse. *)
Record tensors := { t_charges : cell -> R; t_var : cell -> R; t_excl : cell -> R; t_pdf : list R }.

(** A source: names of its parameters and its [get_tensors]. *)
Record source := { s_names : list string; s_eval : list R -> result tensors }.

(** [InputTensorIndexer] (model/source/base.py l.10-24): parameters by name; of
    equal names the last one counts. *)
Definition indexer (names : list string) (row : list R) : result (dict R) :=
  if negb (Nat.eqb (length row) (length names)) then Err ValueError
  else Ok (fold_left (fun d nv => dset (fst nv) (snd nv) d) (combine names row) []).

Definition lookup {A} (k : string) (d : dict A) : result A :=
  match dget k d with Some v => Ok v | None => Err KeyError end.

(** [tf.gather_nd] of the charges at the pulses (l.399-400, l.407-408). *)
Definition gather (f : cell -> R) (ids : list cell) : list R := map f ids.

(** State of the accumulation (l.331-334). *)
Definition acc := option tensors.

(** One source (l.380-404). *)
Definition accumulate (ids : list cell) (a : acc) (r : tensors) : acc :=
  Some (match a with
        | None => {| t_charges := t_charges r; t_var := t_var r;
                     t_excl := fun c => t_excl r c * t_charges r c;
                     t_pdf := zipw Rmult (t_pdf r) (gather (t_charges r) ids) |}
        | Some a => {| t_charges := fun c => t_charges a c + t_charges r c;
                       t_var := fun c => t_var a c + t_var r c;
                       t_excl := fun c => t_excl a c + t_excl r c * t_charges r c;
                       t_pdf := zipw Rplus (t_pdf a) (zipw Rmult (t_pdf r) (gather (t_charges r) ids)) |}
        end).

(** The added constant (l.410). *)
Definition eps : R := 1 / 1000000.

(** Result; the excluded fraction is undefined where it is zero divided by
    zero (l.419). *)
Record combined := { c_charges : cell -> R; c_var : cell -> R; c_excl : cell -> option R; c_pdf : list R }.

(** l.406-423; without sources [tf.squeeze(None)] raises. *)
Definition finish (ids : list cell) (a : acc) : result combined :=
  match a with
  | None => Err ValueError
  | Some a =>
      Ok {| c_charges := t_charges a; c_var := t_var a;
            c_excl := fun c => if Reqb (t_charges a c) 0 then None else Some (t_excl a c / t_charges a c);
            c_pdf := zipw (fun p q => p / (q + eps)) (t_pdf a) (gather (t_charges a) ids) |}
  end.

Section GetTensors.
(** Whether the functions created in the loop over the base sources (l.317-329)
    see the variable [base_source] as it is when they are called, after the loop,
    as in plain Python; otherwise every pass of the loop has its own. *)
Variable late : bool.
(** Order in which Python iterates over the set of base sources (l.317). *)
Variable order : list string.

Fixpoint first_missing (subs : dict source) (l : list string) : bool :=
  match l with [] => false | b :: l' => negb (dmem b subs) || first_missing subs l' end.

(** The source that evaluates the sources of a base. *)
Definition evaluator (subs : dict source) (base : string) : result source :=
  if late then match rev order with [] => Err KeyError | b :: _ => lookup b subs end else lookup base subs.

Fixpoint loop_sources (subs : dict source) (ids : list cell) (params : dict (list R)) (sources : list (string * string)) (a : acc) : result acc :=
  match sources with
  | [] => Ok a
  | (name, base) :: rest =>
      bind (lookup base subs) (fun sub =>
      bind (lookup name params) (fun row =>
      bind (indexer (s_names sub) row) (fun _ =>
      bind (evaluator subs base) (fun e =>
      bind (s_eval e row) (fun r =>
      loop_sources subs ids params rest (accumulate ids a r))))))
  end.

(** [get_tensors] (l.247-423); [split]: [get_source_parameters] of the derived
    class, applied to the named parameters and the row. *)
Definition get_tensors (subs : dict source) (names : list string) (sources : dict string)
  (split : dict R -> list R -> result (dict (list R))) (ids : list cell) (row : list R) : result combined :=
  bind (indexer names row) (fun named =>
  bind (split named row) (fun params =>
  if first_missing subs order then Err KeyError
  else bind (loop_sources subs ids params sources None) (fun a => finish ids a))).
End GetTensors.

(** ** Independent sources *)

(** [get_parameters_and_mapping] (independent.py l.57-65). *)
Fixpoint independent_names (bases : dict source) (sources : dict string) (sorted : list string) : result (list string) :=
  match sorted with
  | [] => Ok []
  | c :: rest =>
      bind (lookup c sources) (fun b =>
      bind (lookup b bases) (fun s =>
      bind (independent_names bases sources rest) (fun l =>
      Ok (map (fun v => (c ++ "_" ++ v)%string) (s_names s) ++ l))))
  end.

Definition independent_parameters (bases : dict source) (sources : dict string) : result (list string) :=
  independent_names bases sources (ssort (dkeys sources)).

(** [get_source_parameters] (independent.py l.67-96); [num_parameters] is the
    number of names. *)
Fixpoint independent_blocks (subs : dict source) (sources : dict string) (row : list R) (counter : nat) (sorted : list string)
  (d : dict (list R)) : result (dict (list R)) :=
  match sorted with
  | [] => Ok d
  | c :: rest =>
      bind (lookup c sources) (fun b =>
      bind (lookup b subs) (fun s =>
      let num := length (s_names s) in
      independent_blocks subs sources row (counter + num) rest (dset c (firstn num (skipn counter row)) d)))
  end.

Definition independent_split (subs : dict source) (sources : dict string) (named : dict R) (row : list R) : result (dict (list R)) :=
  independent_blocks subs sources row 0 (ssort (dkeys sources)) [].

(** ** Track with stochastic losses *)

(** Speed of light (stochastic_track.py l.108, muon/default.py l.85). *)
Definition c_light : R := 299792458 / 1000000000.

(** Direction of flight (stochastic_track.py l.125-127, muon/default.py
    l.97-99). *)
Definition direction (zenith azimuth : R) : R * R * R :=
  (- sin zenith * cos azimuth, - sin zenith * sin azimuth, - cos zenith).

(** [row[-k:]] *)
Definition last_params (k : nat) (row : list R) : list R :=
  if Nat.eqb k 0 then row else skipn (length row - k) row.

Definition cascade_name (i : nat) : string := ("cascade_" ++ fmt04 i)%string.

Section Track.
(** [param_name.format(i)] *)
Variable format : string -> nat -> string.

(** Configuration: number of cascades and the entry
    'snowstorm_parameter_names', empty if missing. *)
Record track_config := { num_cascades : nat; snowstorm : list (string * nat) }.

Definition num_snowstorm (c : track_config) : nat := fold_left (fun n p => (n + snd p)%nat) (snowstorm c) 0%nat.

(** [get_parameters_and_mapping] (stochastic_track.py l.52-91). *)
Definition track_names (c : track_config) : list string :=
  ["zenith"; "azimuth"; "track_anchor_x"; "track_anchor_y"; "track_anchor_z"; "track_anchor_time"; "track_energy";
   "track_distance_start"; "track_distance_end"; "track_stochasticity"]
  ++ (if Nat.leb 1 (num_cascades c) then ["cascade_0000_energy"] else [])
  ++ flat_map (fun i => [(cascade_name i ++ "_energy")%string; (cascade_name i ++ "_distance")%string]) (seq 1 (num_cascades c - 1))
  ++ flat_map (fun p => map (format (fst p)) (seq 0 (snd p))) (snowstorm c).

Definition track_sources (c : track_config) : dict string :=
  [("track", "track")] ++ (if Nat.leb 1 (num_cascades c) then [("cascade_0000", "cascade")] else [])
  ++ map (fun i => (cascade_name i, "cascade")) (seq 1 (num_cascades c - 1)).

Definition track_mapping (c : track_config) (bases : dict source) : result (list string * dict string) :=
  match ssort (dkeys bases) with
  | ["cascade"; "track"]%string => Ok (track_names c, track_sources c)
  | _ => Err ValueError
  end.

(** Position and time at a distance from the anchor (l.137-140, l.184-187). *)
Definition along (x y z t zenith azimuth d : R) : R * R * R * R :=
  let '(dx, dy, dz) := direction zenith azimuth in (x + d * dx, y + d * dy, z + d * dz, t + d / c_light).

(** The other cascades (l.178-199). *)
Fixpoint track_cascades (named : dict R) (x y z t zenith azimuth : R) (extra : list R) (is : list nat) (d : dict (list R)) : result (dict (list R)) :=
  match is with
  | [] => Ok d
  | i :: rest =>
      bind (lookup (cascade_name i ++ "_distance")%string named) (fun distance =>
      bind (lookup (cascade_name i ++ "_energy")%string named) (fun energy =>
      let '(cx, cy, cz, ct) := along x y z t zenith azimuth distance in
      track_cascades named x y z t zenith azimuth extra rest (dset (cascade_name i) ([cx; cy; cz; zenith; azimuth; energy; ct] ++ extra) d)))
  end.

(** [get_source_parameters] (l.93-201). *)
Definition track_split (c : track_config) (named : dict R) (row : list R) : result (dict (list R)) :=
  bind (lookup "track_anchor_x" named) (fun x =>
  bind (lookup "track_anchor_y" named) (fun y =>
  bind (lookup "track_anchor_z" named) (fun z =>
  bind (lookup "zenith" named) (fun zenith =>
  bind (lookup "azimuth" named) (fun azimuth =>
  bind (lookup "track_anchor_time" named) (fun t =>
  bind (lookup "track_distance_start" named) (fun d_start =>
  bind (lookup "track_distance_end" named) (fun d_end =>
  let extra := last_params (num_snowstorm c) row in
  bind (lookup "track_energy" named) (fun energy =>
  bind (lookup "track_stochasticity" named) (fun stoch =>
  let '(tx, ty, tz, ttime) := along x y z t zenith azimuth d_start in
  let d := [("track"%string, [tx; ty; tz; zenith; azimuth; energy; ttime; d_end - d_start; stoch] ++ extra)] in
  if Nat.leb 1 (num_cascades c)
  then bind (lookup "cascade_0000_energy" named) (fun e0 =>
         track_cascades named x y z t zenith azimuth extra (seq 1 (num_cascades c - 1))
           (dset "cascade_0000" ([x; y; z; zenith; azimuth; e0; t] ++ extra) d))
  else Ok d)))))))))).
End Track.

(** ** Several cascades along a muon track *)

(** [get_parameters_and_mapping] (muon/default.py l.51-64). *)
Definition muon_names (n : nat) : list string :=
  ["x"; "y"; "z"; "zenith"; "azimuth"; "time"] ++ map (fun i => (cascade_name i ++ "_log_energy")%string) (seq 0 n).
Definition muon_sources (n : nat) : dict string := map (fun i => (cascade_name i, "cascade")) (seq 0 n).

(** [np.linspace(-d, d, n)] (l.118-120). *)
Definition linspace (d : R) (n : nat) : list R :=
  map (fun i => - d + INR i * (2 * d / INR (n - 1))) (seq 0 n).
Definition distances (n : nat) : list R := match n with 1%nat => [- 500] | _ => linspace 500 n end.

(** Closest approach to the centre of the detector (l.102-113). *)
Definition closest (x y z t zenith azimuth : R) : R * R * R * R :=
  let '(dx, dy, dz) := direction zenith azimuth in
  let s := dx * (0 - x) + dy * (0 - y) + dz * (0 - z) in
  (x + s * dx, y + s * dy, z + s * dz, t + s / c_light).

(** One cascade (l.126-145). *)
Definition muon_cascade (x y z t zenith azimuth log_energy dist : R) : list R :=
  let '(px, py, pz, pt) := closest x y z t zenith azimuth in
  let '(dx, dy, dz) := direction zenith azimuth in
  let cx := px + dist * dx in
  let cy := py + dist * dy in
  let cz := pz + dist * dz in
  let ct := pt + dist / c_light in
  let e := exp log_energy in
  let e := if Rltb 700 (Rabs cx) then e * 0 else e in
  let e := if Rltb 700 (Rabs cy) then e * 0 else e in
  let e := if Rltb 700 (Rabs cz) then e * 0 else e in
  [cx; cy; cz; zenith; azimuth; e; ct].

Fixpoint muon_cascades (named : dict R) (x y z t zenith azimuth : R) (l : list (string * R)) (d : dict (list R)) : result (dict (list R)) :=
  match l with
  | [] => Ok d
  | (name, dist) :: rest =>
      bind (lookup (name ++ "_log_energy")%string named) (fun le =>
      muon_cascades named x y z t zenith azimuth rest (dset name (muon_cascade x y z t zenith azimuth le dist) d))
  end.

(** [get_source_parameters] (l.66-147). *)
Definition muon_split (n : nat) (named : dict R) (row : list R) : result (dict (list R)) :=
  bind (lookup "x" named) (fun x => bind (lookup "y" named) (fun y => bind (lookup "z" named) (fun z =>
  bind (lookup "zenith" named) (fun zenith => bind (lookup "azimuth" named) (fun azimuth => bind (lookup "time" named) (fun t =>
  muon_cascades named x y z t zenith azimuth (combine (dkeys (muon_sources n)) (distances n)) [])))))).

(** [_shift_to_maximum] of the cascade labels
    (/repo/egenerator/data/modules/labels/cascades.py l.275-332) for one event;
    [ln] is NumPy's logarithm, for positive arguments. *)
Definition length_to_maximum (energy : R) : R :=
  let l_rad := 358 / 1000 / (9216 / 10000) in
  let a := 201849 / 100000 + 63176 / 100000 * ln (energy + 1 / 1000000) in
  let b := l_rad / (63207 / 100000) in
  Rmax 0 ((a - 1) / b * l_rad).

Definition shift_to_maximum (x y z zenith azimuth energy t : R) : R * R * R * R :=
  let '(dx, dy, dz) := direction zenith azimuth in
  let l := length_to_maximum energy in
  (x + dx * l, y + dy * l, z + dz * l, t + l / c_light).
