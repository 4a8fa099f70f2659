(** Model of the noise source
    (/repo/egenerator/model/source/noise/default.py l.65-297).

    Simplifications: numbers are exact reals; an infinite or undefined number is
    [None] where a division by the length of the read-out window occurs.
    [InvalidArgumentError] of TensorFlow is [IndexError] for indices out of range
    (as on a CPU) and [AssertionError] for [tf.debugging.Assert].  The dimension
    of 'x_dom_charge' over the events is that of 'x_time_window'. *)
From Coq Require Import Reals.
From Verif Require Import Py RList M_Source.
Open Scope R_scope.

(** A row of 'x_time_exclusions' with its row of 'x_time_exclusions_ids'. *)
Record exclusion := { x_event : nat; x_cell : cell; x_start : R; x_stop : R }.

(** [tf.nn.elu] *)
Definition elu (x : R) : R := if Rltb x 0 then exp x - 1 else x.

(** [tf.clip_by_value] and [tfp.math.clip_by_value_preserve_gradient] *)
Definition clip (x lo hi : R) : R := Rmax (Rmin x hi) lo.

(** The DOMs of the detector: the dimensions 86 and 60 of the tensors. *)
Definition detector_cells : list cell := list_prod (seq 0 86) (seq 0 60).

(** The indices are in the range of a tensor of shape [n, 86, 60]. *)
Definition in_range (n e : nat) (c : cell) : bool :=
  Nat.ltb e n && Nat.ltb (fst c) 86 && Nat.ltb (snd c) 60.

(** [tf.tensor_scatter_nd_add] to zeros (l.211-215) *)
Definition scatter (xs : list (exclusion * R)) (e : nat) (c : cell) : R :=
  Rsum (map snd (filter (fun x => Nat.eqb (x_event (fst x)) e
    && Nat.eqb (fst (x_cell (fst x))) (fst c) && Nat.eqb (snd (x_cell (fst x))) (snd c)) xs)).

(** Two assertions: greater than -1e-4 and less than 1.0001 (l.189-204,
    l.218-230) *)
Definition checked (v : R) : bool := Rltb (- (1 / 10000)) v && Rltb v (10001 / 10000).

(** [livetime] (l.150) *)
Definition livetime (w : R * R) : R := snd w - fst w.

(** [tw_cdf_exclusion] (l.174-186) *)
Definition tw_fraction (w : R * R) (x : exclusion) : option R :=
  if Reqb (livetime w) 0 then None
  else Some ((clip (x_stop x) (fst w) (snd w) - clip (x_start x) (fst w) (snd w)) / livetime w).

(** The fractions of all excluded windows with their assertions (l.174-207). A
    comparison with NaN is false. *)
Fixpoint tw_fractions (windows : list (R * R)) (xs : list exclusion) : result (list (exclusion * R)) :=
  match xs with
  | [] => Ok []
  | x :: rest =>
      match nth_error windows (x_event x) with
      | None => Err IndexError
      | Some w =>
          match tw_fraction w x with
          | None => Err AssertionError
          | Some v =>
              if checked v then bind (tw_fractions windows rest) (fun l => Ok ((x, clip v 0 1) :: l))
              else Err AssertionError
          end
      end
  end.

(** [dom_cdf_exclusion] (l.170-237) *)
Definition dom_exclusion (windows : list (R * R)) (xs : list exclusion) : result (nat -> cell -> R) :=
  bind (tw_fractions windows xs) (fun fr =>
  if negb (forallb (fun x => in_range (length windows) (x_event x) (x_cell x)) xs) then Err IndexError
  else
    let f := scatter fr in
    if forallb (fun e => forallb (fun c => checked (f e c)) detector_cells) (seq 0 (length windows))
    then Ok (fun e c => clip (f e c) 0 1)
    else Err AssertionError).

(** Learned scaling of the charges and the over-dispersion (l.241-253); [w0] and
    [w1] are the weights. *)
Definition mean_scaling (w0 : R) : R :=
  let local := elu w0 + 101 / 100 in elu local + 101 / 100.
Definition noise_alpha (w1 : R) : R :=
  let local := elu w1 + 101 / 100 in elu (local - 5) + 1000001 / 1000000.

Record noise_tensors := {
  n_charges : nat -> cell -> R; n_alpha : R; n_unc : nat -> cell -> R; n_var : nat -> cell -> R;
  n_constant : list (option R); n_pdf : list (option R); n_excl : option (nat -> cell -> R) }.

(** [tf.gather_nd] at the pulses *)
Fixpoint gather_pulses {A} (n : nat) (f : nat -> cell -> A) (ids : list (nat * cell)) : result (list A) :=
  match ids with
  | [] => Ok []
  | (e, c) :: rest =>
      if in_range n e c then bind (gather_pulses n f rest) (fun l => Ok (f e c :: l)) else Err IndexError
  end.

(** [get_tensors] (l.65-297); [rates] are [detector.dom_noise_rates],
    [exclusions] is [None] if the tensor 'x_time_exclusions' does not exist. *)
Definition noise_get_tensors (rates : cell -> R) (w0 w1 : R) (windows : list (R * R))
    (exclusions : option (list exclusion)) (ids : list (nat * cell)) : result noise_tensors :=
  let live e := livetime (nth e windows (0, 0)) in
  let constant e := if Reqb (live e) 0 then None else Some (1 / live e) in
  bind (match exclusions with
        | None => Ok None
        | Some xs => bind (dom_exclusion windows xs) (fun f => Ok (Some f))
        end) (fun excl =>
  let alpha := noise_alpha w1 in
  let charges e c :=
    let q := rates c * live e * mean_scaling w0 in
    let q := match excl with None => q | Some f => q * (1 - f e c + 1 / 1000) end in
    q + 1 / 10000000 in
  let var e c := charges e c + alpha * charges e c ^ 2 in
  bind (gather_pulses (length windows) (fun e c =>
    match constant e with
    | None => None
    | Some k => Some (match excl with None => k | Some f => k / (1 - f e c + 1 / 1000) end)
    end) ids) (fun pdf =>
  Ok {| n_charges := charges; n_alpha := alpha; n_unc := fun e c => sqrt (var e c); n_var := var;
        n_constant := map constant (seq 0 (length windows)); n_pdf := pdf; n_excl := excl |})).
