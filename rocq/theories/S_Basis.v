(** Specification vocabulary for the basis functions, with the notions of the
    standard library only. *)
From Coq Require Import Reals.
From Verif Require Import RList.

(** The error function: the antiderivative of the scaled Gaussian which is zero
    at zero. *)
Definition IsErf (erf : R -> R) : Prop :=
  erf 0 = 0 /\ forall x, derivable_pt_lim erf x (2 / sqrt PI * exp (- x ^ 2)).

Definition IsErfInv (erf erfinv : R -> R) : Prop :=
  forall y, -1 < y < 1 -> erf (erfinv y) = y.

(** Logarithm of the gamma function, up to what the functional equation
    determines. *)
Definition IsLogGamma (lgamma : R -> R) : Prop :=
  lgamma 1 = 0 /\ forall x, 0 < x -> lgamma (x + 1) = lgamma x + ln x.

(** Limits at the ends of the real line. *)
Definition AtPlusInfinity (f : R -> R) (l : R) : Prop :=
  forall eps, 0 < eps -> exists m, forall x, m < x -> Rabs (f x - l) < eps.
Definition AtMinusInfinity (f : R -> R) (l : R) : Prop :=
  forall eps, 0 < eps -> exists m, forall x, x < m -> Rabs (f x - l) < eps.

(** The integral of [f] from [a] to [b] exists and is [v]. *)
Definition Integrates (f : R -> R) (a b v : R) : Prop :=
  exists pr : Riemann_integrable f a b, RiemannInt pr = v.

(** Probability of [k] failures before success number [a] (any positive real)
    if a trial fails with probability [z]. *)
Fixpoint rising (a : R) (k : nat) : R :=
  match k with
  | 0%nat => 1
  | S k' => rising a k' * ((a + INR k') / (INR k' + 1))
  end.
Definition nb_pmf (a z : R) (k : nat) : R := rising a k * Rpower (1 - z) a * z ^ k.

(** A distribution on the natural numbers with a mean and a variance. *)
Definition Distribution (p : nat -> R) (mean var : R) : Prop :=
  (forall k, 0 <= p k) /\ infinite_sum p 1 /\
  infinite_sum (fun k => INR k * p k) mean /\
  infinite_sum (fun k => (INR k - mean) ^ 2 * p k) var.
