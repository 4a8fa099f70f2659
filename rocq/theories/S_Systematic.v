(** Specification for the cascade source with systematic parameters. *)
From Coq Require Import Reals.
From Verif Require Import Py RList M_Source M_Noise M_Cascade S_Cascade M_Systematic.
Open Scope R_scope.

(** Rows of parameters of the documented length, and networks of the configured
    sizes *)
Definition Fits (local_vars : cell -> list R) (lnet : list (list (list R)) -> nat -> cell -> list R)
    (y : systematic_config) (rows : list (list R)) : Prop :=
  Forall (fun row => length row = num_parameters (y_base y)) rows /\
  (forall c, length (local_vars c) = g_local (y_base y)) /\
  (forall inputs e c, length (lnet inputs e c) = y_filters y).

(** How often the efficiency of the DOMs is a parameter *)
Definition efficiencies (names : list string) : nat := count_occ string_dec names "DOMEfficiency"%string.

(** There is a parameter beside the seven of a cascade and the efficiency. *)
Definition HasSystematic (names : list string) : Prop :=
  exists i name, (7 <= i)%nat /\ nth_error names i = Some name /\ name <> "DOMEfficiency"%string.

(** The parameters differ at most in entry [i]. *)
Definition DifferAt (i : nat) (row row' : list R) : Prop :=
  length row' = length row /\ forall j, j <> i -> nth j row' 0 = nth j row 0.

(** [dom] lies in the direction [n] of [vertex] at the distance [d]. *)
Definition Toward (dom vertex : R * R * R) (d : R) (n : R * R * R) : Prop :=
  let '(x, y, z) := dom in let '(vx, vy, vz) := vertex in let '(nx, ny, nz) := n in
  0 < d /\ nx ^ 2 + ny ^ 2 + nz ^ 2 = 1 /\ x = vx + d * nx /\ y = vy + d * ny /\ z = vz + d * nz.

(** What the two networks are told about an event with the parameters [row] and the
    DOM at [dom] with the learned variables [vars]; [local]: output of the first
    network *)
Definition Told (trafo : nat -> R -> R) (mean std : nat -> R) (norm_const : R) (y : systematic_config)
    (names : list string) (dom : R * R * R) (row vars local first second : list R) : Prop :=
  exists d nx ny nz angle azimuth,
    Toward dom (nth 0 row 0, nth 1 row 0, nth 2 row 0) d (nx, ny, nz) /\
    (* angle between the direction of the cascade and that to the DOM *)
    0 <= angle <= PI /\
    cos angle = - (sin (nth 3 row 0) * cos (nth 4 row 0) * nx + sin (nth 3 row 0) * sin (nth 4 row 0) * ny
                   + cos (nth 3 row 0) * nz) /\
    (* azimuth of the direction from the DOM to the vertex *)
    0 <= azimuth < 2 * PI /\
    (exists rho, 0 <= rho /\ - nx = rho * cos azimuth /\ - ny = rho * sin azimuth) /\
    let scale := sqrt (std 0%nat ^ 2 + std 1%nat ^ 2 + std 2%nat ^ 2) + norm_const in
    first = [nx; ny; nz; d / scale] ++ vars /\
    second =
      [- (sin (nth 3 row 0) * cos (nth 4 row 0)); - (sin (nth 3 row 0) * sin (nth 4 row 0)); - cos (nth 3 row 0);
       trafo 5%nat (nth 5 row 0); nx; ny; nz; d / scale]
      ++ (if g_opening (y_base y) then [(angle - mean 3%nat) / (norm_const + std 3%nat)] else [])
      ++ (if y_anisotropy y then [(azimuth - mean 4%nat) / (norm_const + std 4%nat)] else [])
      ++ (if g_coordinates (y_base y)
          then [fst (fst dom) / 284; snd (fst dom) / 284; snd dom / 284] else [])
      ++ map (fun i => trafo i (nth i row 0))
           (filter (fun i => negb (String.eqb (nth i names ""%string) "DOMEfficiency"%string)) (seq 7 (length names - 7)))
      ++ local.
