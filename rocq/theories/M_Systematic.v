(** Model of the cascade source with systematic parameters
    (/repo/egenerator/model/source/cascade/systematic.py l.12-619).

    Simplifications: as in M_Cascade (exact reals, the vertex not at the position
    of a DOM, the two networks arbitrary functions of the inputs of the whole
    batch).  The source never reads the tensors of the excluded time windows; they
    are therefore no argument of [systematic_get_tensors].  The prints are left
    out. *)
From Coq Require Import Reals.
From Verif Require Import Py PyStr RList M_Source M_Noise M_Basis M_Cascade.
From Verif Require M_Angles M_Sphere.
Open Scope R_scope.

(** The options shared with the default cascade; of these [g_filters] is
    'num_filters_list_2'[-1], and [g_sort] and [g_global] are not read. *)
Record systematic_config := {
  y_base : cascade_config;
  y_anisotropy : bool;          (* 'add_anisotropy_angle' *)
  y_filters : nat               (* 'num_filters_list'[-1]: outputs of the local network *)
}.

Section Systematic.
Variable format : string -> nat -> string.

(** Names of the parameters (l.53-66) *)
Definition systematic_names (y : systematic_config) : list string := cascade_names format (y_base y).

Definition has_efficiency (y : systematic_config) : bool :=
  existsb (String.eqb "DOMEfficiency") (systematic_names y).

(** Input channels of the second network (l.61-86) *)
Definition num_shared_inputs (y : systematic_config) : nat :=
  let num_add := match g_labels (y_base y) with Some l => length l | None => 0%nat end in
  let num_snow := match g_snowstorm (y_base y) with
                  | Some l => fold_left (fun n p => (n + snd p)%nat) l 0%nat
                  | None => 0%nat end in
  (8 + num_add + num_snow - (if has_efficiency y then 1 else 0) + y_filters y
   + (if g_opening (y_base y) then 1 else 0) + (if y_anisotropy y then 1 else 0)
   + (if g_coordinates (y_base y) then 3 else 0))%nat.

(** Input channels of the first network (l.68, l.88-92) *)
Definition num_local_inputs (y : systematic_config) : nat := (4 + g_local (y_base y))%nat.

Variable trafo : nat -> R -> R.
Variables mean std : nat -> R.
Variable norm_const : R.
Variable coords : cell -> R * R * R.
Variable local_vars : cell -> list R.

(** The direction from the vertex to the DOM and the scaled distance (l.228-241,
    l.271) *)
Definition displacement (row : list R) (c : cell) : R * R * R * R :=
  let '(x, y, z) := coords c in
  let dx := x - nth 0 row 0 in
  let dy := y - nth 1 row 0 in
  let dz := z - nth 2 row 0 in
  let distance := sqrt (dx ^ 2 + dy ^ 2 + dz ^ 2) in
  (dx / distance, dy / distance, dz / distance,
   distance / (sqrt (std 0 ^ 2 + std 1 ^ 2 + std 2 ^ 2) + norm_const)).

(** Azimuth of the displacement (l.260-264) *)
Definition anisotropy_angle (nx ny : R) : R :=
  M_Sphere.fmod (M_Sphere.atan2 (- ny) (- nx) + 2 * PI) (2 * PI).

(** Input of the first network (l.291, l.315-324) *)
Definition local_input (row : list R) (c : cell) : list R :=
  let '(nx, ny, nz, d) := displacement row c in
  [nx; ny; nz; d] ++ local_vars c.

(** Indices of the parameters of the second network (l.338-343) *)
Definition add_indices (y : systematic_config) : result (list nat) :=
  let names := systematic_names y in
  let fix go l :=
    match l with
    | [] => Ok []
    | name :: l =>
        if String.eqb name "DOMEfficiency" then go l
        else bind (name_index names name) (fun i => bind (go l) (fun is => Ok (i :: is)))
    end in
  go (skipn 7 names).

(** Input of the second network (l.243-313, l.345-352); [local]: output of the
    first network *)
Definition shared_input (y : systematic_config) (add : list nat) (row : list R) (c : cell) (local : list R)
    : list R :=
  let '(x0, y0, z0) := coords c in
  let '(nx, ny, nz, d) := displacement row c in
  let '(ux, uy, uz) := direction (nth 3 row 0) (nth 4 row 0) in
  let opening_angle := M_Angles.get_angle (ux, uy, uz) (nx, ny, nz) in
  let t i := trafo i (nth i row 0) in
  [ux; uy; uz; t 5%nat] ++ [nx; ny; nz; d]
  ++ (if g_opening (y_base y) then [(opening_angle - mean 3) / (norm_const + std 3)] else [])
  ++ (if y_anisotropy y then [(anisotropy_angle nx ny - mean 4) / (norm_const + std 4)] else [])
  ++ (if g_coordinates (y_base y) then [x0 / 284; y0 / 284; z0 / 284] else [])
  ++ map t add ++ local.

Variable lgamma : R -> R.
Variable rel_eff : cell -> R.
(** The layers of the two networks *)
Variables lnet net : list (list (list R)) -> nat -> cell -> list R.

Definition local_inputs (rows : list (list R)) : list (list (list R)) :=
  map (fun row => map (local_input row) detector_cells) rows.
Definition shared_inputs (y : systematic_config) (add : list nat) (rows : list (list R)) : list (list (list R)) :=
  map (fun er => map (fun c => shared_input y add (snd er) c (lnet (local_inputs rows) (fst er) c)) detector_cells)
    (combine (seq 0 (length rows)) rows).

Definition wrong_width (width : nat) (inputs : list (list (list R))) : bool :=
  existsb (fun l => existsb (fun v => negb (Nat.eqb (length v) width)) l) inputs.

(** [get_tensors] (l.137-619) *)
Definition systematic_get_tensors (y : systematic_config) (rows : list (list R)) (charges : nat -> cell -> R)
    (pulses : list cpulse) : result cascade_tensors :=
  let g := y_base y in
  let n := length rows in
  if existsb (fun row => Nat.ltb (length row) 7) rows then Err IndexError
  else if wrong_width (num_local_inputs y) (local_inputs rows) then Err ValueError
  else bind (add_indices y) (fun add =>
  if existsb (fun row => existsb (fun i => Nat.leb (length row) i) add) rows then Err IndexError
  (* [tf.stack] of nothing (l.346) *)
  else if Nat.eqb (length add) 0 then Err ValueError
  else if wrong_width (num_shared_inputs y) (shared_inputs y add rows) then Err ValueError
  else
    let out e c := net (shared_inputs y add rows) e c in
    bind (if has_efficiency y
          then bind (name_index (systematic_names y) "DOMEfficiency") (fun i => Ok (Some i))
          else Ok None) (fun eff =>
    if existsb (fun row => match eff with Some i => Nat.leb (length row) i | None => false end) rows
    then Err IndexError
    else
      (* l.372-393 *)
      let q e c :=
        let row := nth e rows [] in
        let q := exp (nth 0 (out e c) 0) in
        let q := if g_scale g then q * (nth 5 row 0 / 10000) else q in
        let q := if g_relative g then q * rel_eff c else q in
        let q := match eff with Some i => q * nth i row 0 | None => q end in
        q + 1 / 10000000 in
      (* l.397-520, as in the default cascade *)
      let terms e c := charge_terms lgamma g (out e c) (q e c) (charges e c) in
      (* l.541-547 *)
      if negb (Nat.eqb (g_models g * 4 + n_charge (mode g)) (g_filters g)) then Err ValueError
      else if Nat.leb (g_models g) 1 then Err ValueError
      else
        (* l.549-577: without sorting *)
        let nm := g_models g in
        let nc := n_charge (mode g) in
        let comps e c :=
          let o := out e c in
          let mu := map (fun v => 1 + 1 * v) (slice (nc + 0 * nm) nm o) in
          let sigma := map (fun v => elu (2 + 1 * v) + 1001 / 1000) (slice (nc + 1 * nm) nm o) in
          let r := map (fun v => elu (1 + 1 * v) + 1001 / 1000) (slice (nc + 2 * nm) nm o) in
          let scale := map (fun v => elu (1 + 1 * v) + 100001 / 100000) (slice (nc + 3 * nm) nm o) in
          let total := Rsum scale in
          let scale := map (fun s => s / total) scale in
          map (fun i => {| k_mu := nth i mu 0; k_sigma := nth i sigma 0; k_r := nth i r 0; k_scale := nth i scale 0 |})
            (seq 0 nm) in
        (* l.526-536, l.584-616 *)
        bind (pulse_densities n (fun e c t =>
                pulse_density (comps e c) None (nth 6 (nth e rows []) 0) t) pulses) (fun pdf =>
        Ok {| a_comps := comps; a_excl := None; a_excl_sum := None; a_charges := q;
              a_unc := fun e c => fst (fst (terms e c)); a_var := fun e c => snd (fst (terms e c));
              a_llh := match mode g with
                       | Poisson => None
                       | _ => Some (fun e c => match snd (terms e c) with Some v => v | None => NaN end)
                       end;
              a_pdf := pdf |}))).
End Systematic.
