(** Model of the tables of the detector (/repo/egenerator/utils/detector.py).

    The numbers are those of [M_DetectorData].  Simplifications: decimals are exact
    (lengths and efficiencies in hundredths, rates in units of 1e-26 Hz); arrays
    are nested lists, and the sizes given to [np.reshape] are those of the data
    (theorem C182_shapes). *)
From Coq Require Import ZArith Lia.
From Verif Require Import Py.
From Verif Require Export M_DetectorData.
Open Scope Z_scope.

(** ** Arrays *)

(** The rows of length [n] of a flat array, the last axis of [np.reshape] *)
Fixpoint chunks_aux {A} (fuel n : nat) (l : list A) : list (list A) :=
  match fuel with
  | O => []
  | S f => match l with [] => [] | _ :: _ => firstn n l :: chunks_aux f n (skipn n l) end
  end.
Definition chunks {A} (n : nat) (l : list A) : list (list A) := chunks_aux (length l) n l.

(** The index numpy uses for an integer [i] on an axis of length [n] *)
Definition python_index (n : nat) (i : Z) : result nat :=
  if (0 <=? i) && (i <? Z.of_nat n) then Ok (Z.to_nat i)
  else if (- Z.of_nat n <=? i) && (i <? 0) then Ok (Z.to_nat (i + Z.of_nat n))
  else Err IndexError.

(** [a[i]] *)
Definition get {A} (a : list A) (i : Z) : result A :=
  bind (python_index (length a) i) (fun k => match nth_error a k with Some x => Ok x | None => Err IndexError end).

(** ** Dictionaries whose keys are integers or tuples *)

Section Dict.
  Context {K A : Type} (eqb : K -> K -> bool).
  Fixpoint lookup (k : K) (d : list (K * A)) : option A :=
    match d with [] => None | (k', v) :: d' => if eqb k k' then Some v else lookup k d' end.
  Fixpoint store (k : K) (v : A) (d : list (K * A)) : list (K * A) :=
    match d with
    | [] => [(k, v)]
    | (k', v') :: d' => if eqb k k' then (k', v) :: d' else (k', v') :: store k v d'
    end.
End Dict.
Definition pair_eqb (p q : Z * Z) : bool := (fst p =? fst q) && (snd p =? snd q).
Definition triple_eqb (p q : Z * Z * Z) : bool := pair_eqb (fst p) (fst q) && (snd p =? snd q).

(** ** Coordinates *)

(** [x_coords] (l.13): shape [86, 60, 3] *)
Definition x_coords : list (list (list Z)) := chunks 60 (chunks 3 (concat x_coords_flat_lines)).

(** [np.round] of a number in hundredths *)
Definition np_round (c : Z) : Z :=
  let q := c / 100 in
  let r := c mod 100 in
  if r <? 50 then q else if 50 <? r then q + 1 else if Z.even q then q else q + 1.

(** [x_coords_rounded] (l.14) and [dom_coord_dict] (l.16-19) *)
Definition range (n : nat) : list Z := map Z.of_nat (seq 0 n).
Definition doms : list (Z * Z) := list_prod (range 86) (range 60).
Definition rounded (s om : Z) : result (Z * Z * Z) :=
  bind (get x_coords s) (fun st => bind (get st om) (fun c =>
    match map np_round c with [x; y; z] => Ok (x, y, z) | _ => Err ValueError end)).
Definition dom_coord_dict : result (list ((Z * Z * Z) * (Z * Z))) :=
  fold_left (fun d '(s, om) => bind d (fun d => bind (rounded s om) (fun k => Ok (store triple_eqb k (s, om) d)))) doms (Ok []).

(** [X_IC79_coords] (l.27): shape [10, 10, 60, 3] *)
Definition X_IC79_coords : list (list (list (list Z))) := chunks 10 (chunks 60 (chunks 3 (concat X_IC79_coords_flat_lines))).

(** [get_matrix_indices] (l.239-244) *)
Definition get_matrix_indices (string : Z) : result (Z * Z) :=
  match lookup Z.eqb string string_hex_coord_dict with
  | None => Err KeyError
  | Some (hex_a, hex_b) => Ok (hex_a + 4, hex_b + 5)
  end.

(** [get_dom_coords] (l.247-266) *)
Definition get_dom_coords (string dom : Z) : result (list Z) :=
  if negb ((0 <? string) && (string <=? 86)) then Err AssertionError
  else if negb ((0 <? dom) && (dom <=? 60)) then Err AssertionError
  else
    bind (get_matrix_indices string) (fun '(a, b) =>
    bind (get X_IC79_coords a) (fun plane => bind (get plane b) (fun cell => get cell (dom - 1)))).

(** [IC79_real_DOMs_mask] (l.273-275) *)
Fixpoint replace_at {A} (i : nat) (x : A) (l : list A) : list A :=
  match l, i with
  | [], _ => []
  | _ :: l', O => x :: l'
  | y :: l', S i' => y :: replace_at i' x l'
  end.
Definition IC79_real_DOMs_mask : result (list (list (list bool))) :=
  fold_left (fun m '(_, (a, b)) =>
      bind m (fun m =>
      bind (python_index 10 (a + 4)) (fun i =>
      bind (python_index 10 (b + 5)) (fun j =>
      Ok (replace_at i (replace_at j (repeat true 60) (nth i m [])) m)))))
    string_hex_coord_dict (Ok (repeat (repeat (repeat false 60) 10) 10)).

(** ** Efficiencies and noise rates *)

(** [rel_dom_eff] (l.42-129), [rel_dom_eff_without_bad_doms] (l.132-219) and
    [bad_doms_mask] (l.227): shapes [86, 60] *)
Definition rel_dom_eff : list (list Z) := rel_dom_eff_lines.
Definition rel_dom_eff_without_bad_doms : list (list Z) := rel_dom_eff_without_bad_doms_lines.
Definition bad_doms_mask : list (list bool) := map (map (fun e => negb (e =? 0))) rel_dom_eff_without_bad_doms.

(** [dom_noise_rate_dict] and [dom_noise_rates] (l.29-38): shape [86, 60] *)
Definition dom_noise_rate_dict : list ((Z * Z) * option Z) := concat dom_noise_rate_lines.
Definition noise_rate (s om : Z) : Z :=
  match (match lookup pair_eqb (s, om) dom_noise_rate_dict with
         | Some v => v
         | None => Some 0
         end) with
  | Some v => v
  | None => 0
  end.
Definition dom_noise_rates : list (list Z) :=
  map (fun s => map (fun om => noise_rate (s + 1) (om + 1)) (range 60)) (range 86).
