(** Specification for the simulation module. *)
From Coq Require Import Reals Sorting.Sorted Sorting.Permutation.
From Verif Require Import Py RList M_Simulation.
Open Scope R_scope.

(** [l'] are the elements of [l] with the property [P], in the same order. *)
Inductive Selects {A} (P : A -> Prop) : list A -> list A -> Prop :=
| sel_nil : Selects P [] []
| sel_keep x l l' : P x -> Selects P l l' -> Selects P (x :: l) (x :: l')
| sel_drop x l l' : ~ P x -> Selects P l l' -> Selects P (x :: l) l'.

(** An occurrence of a particle in a tree: its ancestors, itself and the number
    of its daughters *)
Record occurrence := mk_occ { c_above : list particle; c_self : particle; c_daughters : nat }.

(** The occurrences in a tree, every particle before its daughters *)
Fixpoint occurrences (above : list particle) (t : tree) : list occurrence :=
  match t with
  | Node p ds => mk_occ above p (length ds) :: flat_map (occurrences (p :: above)) ds
  end.

Section Cuts.
  Variables emin dmax : R.

  (** The particle has enough energy and begins, or can come, close enough to
      the centre of the detector; nothing is known of one without a length. *)
  Definition Passes (p : particle) : Prop :=
    emin <= i_energy p /\ forall l, i_length p = Some l -> magnitude (i_pos p) - l <= dmax.

  (** Types of particles *)
  Definition Electromagnetic (t : ptype) : Prop :=
    t = Pi0 \/ t = Gamma \/ t = PairProd \/ t = Brems \/ t = DeltaE \/ t = EMinus \/ t = EPlus.
  Definition Neutrino (t : ptype) : Prop :=
    t = NuE \/ t = NuMu \/ t = NuTau \/ t = NuEBar \/ t = NuMuBar \/ t = NuTauBar.

  (** All ancestors pass and none of them is a cascade. *)
  Definition Reached (c : occurrence) : Prop :=
    Forall (fun p => Passes p /\ ~ Electromagnetic (i_type p)) (c_above c).

  (** The occurrence is a light source. *)
  Definition Source (c : occurrence) : Prop :=
    Reached c /\ Passes (c_self c) /\ Electromagnetic (i_type (c_self c)).

  (** The occurrence cannot be simulated. *)
  Definition Fault (c : occurrence) (e : exn) : Prop :=
    Reached c /\ Passes (c_self c) /\ ~ Electromagnetic (i_type (c_self c)) /\
    (c_daughters c = 0%nat /\ ~ Neutrino (i_type (c_self c)) /\ e = NotImplementedError \/
     c_daughters c <> 0%nat /\ ~ Neutrino (i_type (c_self c)) /\ i_type (c_self c) <> Hadrons /\ e = ValueError).
End Cuts.

(** Parameters of a particle by name *)
Inductive ParameterOf (p : particle) : string -> R -> Prop :=
| of_x : ParameterOf p "x" (fst (fst (i_pos p)))
| of_y : ParameterOf p "y" (snd (fst (i_pos p)))
| of_z : ParameterOf p "z" (snd (i_pos p))
| of_zenith : ParameterOf p "zenith" (i_zenith p)
| of_azimuth : ParameterOf p "azimuth" (i_azimuth p)
| of_energy : ParameterOf p "energy" (i_energy p)
| of_time : ParameterOf p "time" (i_time p).

(** A pulse map: DOMs numbered from one, no DOM twice *)
Definition ValidMap (m : list (omkey * list pulse)) : Prop :=
  NoDup (map fst m) /\ forall k l, In (k, l) m -> (1 <= fst k <= 86)%nat /\ (1 <= snd k <= 60)%nat.

(** The pulses of the DOM [s], [o] (numbered from zero); none without an entry *)
Definition series_of (s o : nat) (m : list (omkey * list pulse)) (l : list pulse) : Prop :=
  In ((s + 1, o + 1)%nat, l) m \/ l = [] /\ forall l', ~ In ((s + 1, o + 1)%nat, l') m.

(** The pulses [ps] of one cascade in one DOM: one per photo-electron, with
    positive charges that add up to their number, and times [time u] of the random
    numbers [us] *)
Definition OfCascade (n : nat) (us : list (R * R)) (time : R * R -> result R) (ps : list pulse) : Prop :=
  length ps = n /\ Rsum (map fst ps) = INR n /\ Forall (fun p => 0 < fst p) ps /\
  Forall2 (fun u p => time u = Ok (snd p)) us ps.

(** The latent variables are those of the mixtures [ks]. *)
From Verif Require M_Gof.
From Verif Require Import M_Cascade.
Definition HasComponents (l : M_Gof.latent) (ks : nat -> nat -> list comp) : Prop :=
  forall s o, M_Gof.l_scale l s o = map k_scale (ks s o) /\ M_Gof.l_mu l s o = map k_mu (ks s o) /\
    M_Gof.l_sigma l s o = map k_sigma (ks s o) /\ M_Gof.l_r l s o = map k_r (ks s o).
