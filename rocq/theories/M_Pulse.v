(** Model of the pulse data module
    (/repo/egenerator/data/modules/data/pulse_data.py).

    Simplifications: real numbers instead of floats; indices are unbounded
    (the code computes them with 32 bit integers); the four numbers that
    identify an event are one number; the index of the label table is 0, 1, ... *)
From Coq Require Import Reals ZArith.
From Verif Require Import Py RList.
Open Scope Z_scope.

(** [array[i]] along an axis of length [n]. *)
Definition pyidx (n : nat) (i : Z) : result nat :=
  if (0 <=? i) && (i <? Z.of_nat n) then Ok (Z.to_nat i)
  else if (- Z.of_nat n <=? i) && (i <? 0) then Ok (Z.to_nat (i + Z.of_nat n))
  else Err IndexError.

(** Arrays of shape [size, 86, 60, 1]. *)
Definition grid (A : Type) := nat -> nat -> nat -> A.
Definition upd {A} (g : grid A) (e s d : nat) (v : A) : grid A :=
  fun e' s' d' => if Nat.eqb e e' && Nat.eqb s s' && Nat.eqb d d' then v else g e' s' d'.
(** [array.flatten()] *)
Definition flatten {A} (size : nat) (g : grid A) : list A :=
  flat_map (fun e => flat_map (fun s => map (g e s) (seq 0 60)) (seq 0 86)) (seq 0 size).

(** Rows of the tables and columns used: pulses (l.305-318), time windows
    (l.357-366), DOMs (l.375-382). *)
Record pulse := { p_event : nat; p_string : Z; p_dom : Z; p_time : R; p_charge : R }.
Record window := { w_event : nat; w_string : Z; w_dom : Z; w_start : R; w_stop : R }.
Record om := { m_event : nat; m_string : Z; m_dom : Z }.

(** Rows of [x_pulses]: charge, time and the third column, [None] if there is no
    third column or its value is not a number. *)
Record prow := { r_charge : R; r_time : R; r_third : option R }.
Definition pid := (Z * Z * Z)%type.

(** Settings. *)
Record pconfig := { quant : bool; dom_key : bool; time_key : bool; discard : bool }.

(** File contents; [None]: the key is missing. *)
Record hfile := { f_labels : option (list nat); f_pulses : option (list pulse); f_doms : option (list om); f_times : option (list window) }.

(** Contents of memory returned by [np.empty] (l.272-293). *)
Record memory := { j_rows : nat -> prow; j_ids : nat -> pid; j_tws : nat -> R * R; j_tw_ids : nat -> pid }.

(** Result: number of events and tensors. *)
Record presult := { o_size : nat; o_charge : grid R; o_excl : option (grid bool); o_pulses : list prow; o_ids : list pid;
                    o_window : nat -> option R * option R; o_tws : option (list (R * R)); o_tw_ids : option (list pid) }.

(** Event number: the last row with the id (l.258-260, l.309). *)
Fixpoint find_event (labels : list nat) (k : nat) (e : nat) (found : option nat) : option nat :=
  match labels with
  | [] => found
  | l :: rest => find_event rest (S k) e (if Nat.eqb l e then Some k else found)
  end.
Definition event_index (labels : list nat) (e : nat) : result nat :=
  match find_event labels 0 e None with Some k => Ok k | None => Err KeyError end.

(** Update of the time window (l.330-334); [None] is plus or minus infinity. *)
Definition widen (w : option R * option R) (t : R) : option R * option R :=
  (match fst w with Some l => if Rltb t l then Some t else Some l | None => Some t end,
   match snd w with Some h => if Rltb h t then Some t else Some h | None => Some t end).

Definition setf {A} (f : nat -> A) (k : nat) (v : A) : nat -> A := fun k' => if Nat.eqb k k' then v else f k'.

Record pstate := { s_charge : grid R; s_rows : nat -> prow; s_ids : nat -> pid; s_window : nat -> option R * option R }.

(** One pulse (l.304-334). *)
Definition pulse_step (labels : list nat) (q : bool) (k : nat) (p : pulse) (st : pstate) : result pstate :=
  if 60 <? p_dom p then Ok st
  else
    bind (event_index labels (p_event p)) (fun e =>
    bind (pyidx 86 (p_string p - 1)) (fun s =>
    bind (pyidx 60 (p_dom p - 1)) (fun d =>
    let c := (s_charge st e s d + p_charge p)%R in
    Ok {| s_charge := upd (s_charge st) e s d c;
          s_rows := setf (s_rows st) k {| r_charge := p_charge p; r_time := p_time p; r_third := if q then Some c else None |};
          s_ids := setf (s_ids st) k (Z.of_nat e, p_string p - 1, p_dom p - 1);
          s_window := setf (s_window st) e (widen (s_window st e) (p_time p)) |}))).

Fixpoint pulse_loop (labels : list nat) (q : bool) (k : nat) (ps : list pulse) (st : pstate) : result pstate :=
  match ps with
  | [] => Ok st
  | p :: rest => bind (pulse_step labels q k p st) (fun st' => pulse_loop labels q (S k) rest st')
  end.

(** Flat indices (l.342-344). *)
Definition flat_index (i : pid) : Z := let '(e, s, d) := i in e * 86 * 60 + s * 60 + d.

(** [array[index]] for one index. *)
Definition fetch {A} (l : list A) (i : Z) : result A :=
  bind (pyidx (length l) i) (fun k => match nth_error l k with Some v => Ok v | None => Err IndexError end).

Fixpoint mapr {A B} (f : A -> result B) (l : list A) : result (list B) :=
  match l with [] => Ok [] | x :: rest => bind (f x) (fun y => bind (mapr f rest) (fun ys => Ok (y :: ys))) end.

(** Division of floats; division by zero gives no number. *)
Definition fdiv (x : option R) (y : R) : option R :=
  match x with Some x => if Reqb y 0 then None else Some (x / y)%R | None => None end.

(** Division by the charges of the DOMs (l.337-350). *)
Definition divide (size : nat) (charge : grid R) (ids : list pid) (rows : list prow) : result (list prow) :=
  bind (mapr (fun i => fetch (flatten size charge) (flat_index i)) ids) (fun qs =>
  Ok (zipw (fun r q => {| r_charge := r_charge r; r_time := r_time r; r_third := fdiv (r_third r) q |}) rows qs)).

(** Time windows (l.355-371). *)
Fixpoint tw_loop (labels : list nat) (k : nat) (ws : list window) (st : (nat -> R * R) * (nat -> pid)) : result ((nat -> R * R) * (nat -> pid)) :=
  match ws with
  | [] => Ok st
  | w :: rest =>
      if 60 <? w_dom w then tw_loop labels (S k) rest st
      else bind (event_index labels (w_event w)) (fun e =>
           tw_loop labels (S k) rest (setf (fst st) k (w_start w, w_stop w), setf (snd st) k (Z.of_nat e, w_string w - 1, w_dom w - 1)))
  end.

(** Excluded DOMs (l.376-384). *)
Fixpoint dom_loop (labels : list nat) (ms : list om) (g : grid bool) : result (grid bool) :=
  match ms with
  | [] => Ok g
  | m :: rest =>
      if 60 <? m_dom m then dom_loop labels rest g
      else bind (event_index labels (m_event m)) (fun e =>
           bind (pyidx 86 (m_string m - 1)) (fun s =>
           bind (pyidx 60 (m_dom m - 1)) (fun d => dom_loop labels rest (upd g e s d false))))
  end.

(** [x[mask]] *)
Fixpoint masked {A} (mask : list bool) (l : list A) : list A :=
  match mask, l with
  | b :: mask', x :: l' => if b then x :: masked mask' l' else masked mask' l'
  | _, _ => []
  end.

(** Discarding pulses (l.386-402). *)
Definition drop_excluded (size : nat) (excl : grid bool) (ids : list pid) (rows : list prow) : result (list prow * list pid) :=
  bind (mapr (fun i => fetch (flatten size excl) (flat_index i)) ids) (fun mask => Ok (masked mask rows, masked mask ids)).

Section Readers.
(** [detector.bad_doms_mask] *)
Variable bad_doms : nat -> nat -> bool.

Definition initial (rows : nat -> prow) (ids : nat -> pid) : pstate :=
  {| s_charge := fun _ _ _ => 0%R; s_rows := rows; s_ids := ids; s_window := fun _ => (None, None) |}.

(** [get_data_from_hdf] (l.198-420); [Ok None]: the file is skipped. *)
Definition read_hdf (c : pconfig) (j : memory) (f : hfile) : result (option presult) :=
  match f_pulses f, f_labels f with
  | Some ps, Some labels =>
      let size := length labels in
      let doms := if dom_key c then f_doms f else None in
      let times := if time_key c then f_times f else None in
      (* len(time_exclusions['Event']) of None (l.273) *)
      if time_key c && match times with None => true | Some _ => false end then Err TypeError
      else
        let n := length ps in
        bind (pulse_loop labels (quant c) 0 ps (initial (j_rows j) (j_ids j))) (fun st =>
        let rows := map (s_rows st) (seq 0 n) in
        let ids := map (s_ids st) (seq 0 n) in
        bind (if quant c then divide size (s_charge st) ids rows else Ok rows) (fun rows =>
        bind (match times with
              | Some ws => bind (tw_loop labels 0 ws (j_tws j, j_tw_ids j)) (fun t =>
                           Ok (Some (map (fst t) (seq 0 (length ws))), Some (map (snd t) (seq 0 (length ws)))))
              | None => Ok (None, None)
              end) (fun tw =>
        let g0 : grid bool := fun _ s d => bad_doms s d in
        bind (match doms with
              | Some ms =>
                  bind (dom_loop labels ms g0) (fun g =>
                  if discard c then bind (drop_excluded size g ids rows) (fun ri => Ok (g, fst ri, snd ri)) else Ok (g, rows, ids))
              | None => Ok (g0, rows, ids)
              end) (fun gri =>
        let '(g, rows, ids) := gri in
        Ok (Some {| o_size := size; o_charge := s_charge st; o_excl := if dom_key c then Some g else None; o_pulses := rows; o_ids := ids;
                    o_window := s_window st; o_tws := fst tw; o_tw_ids := snd tw |})))))
  | _, _ => Ok None
  end.

(** ** Frames *)

(** Contents of a frame: series of pulses (time and charge) and of time windows
    by DOM, DOMs. *)
Record frame := { g_pulses : list ((Z * Z) * list (R * R)); g_doms : option (list (Z * Z)); g_times : option (list ((Z * Z) * list (R * R))) }.

Record fstate := { t_charge : grid R; t_rows : list prow; t_ids : list pid; t_window : option R * option R }.

(** Pulses of a DOM (l.508-538). *)
Fixpoint series (q : bool) (string dom : Z) (ps : list (R * R)) (st : fstate) : result fstate :=
  match ps with
  | [] => Ok st
  | (time, charge) :: rest =>
      bind (pyidx 86 (string - 1)) (fun s =>
      bind (pyidx 60 (dom - 1)) (fun d =>
      let c := (t_charge st 0%nat s d + charge)%R in
      series q string dom rest
        {| t_charge := upd (t_charge st) 0 s d c;
           t_rows := t_rows st ++ [{| r_charge := charge; r_time := time; r_third := if q then Some c else None |}];
           t_ids := t_ids st ++ [(0, string - 1, dom - 1)];
           t_window := widen (t_window st) time |}))
  end.

(** All DOMs (l.497-538). *)
Fixpoint frame_pulses (q : bool) (l : list ((Z * Z) * list (R * R))) (st : fstate) : result fstate :=
  match l with
  | [] => Ok st
  | ((string, dom), ps) :: rest =>
      if 60 <? dom then frame_pulses q rest st else bind (series q string dom ps st) (fun st' => frame_pulses q rest st')
  end.

(** Time windows (l.565-580). *)
Fixpoint frame_times (l : list ((Z * Z) * list (R * R))) : list (R * R) * list pid :=
  match l with
  | [] => ([], [])
  | ((string, dom), ws) :: rest =>
      let r := frame_times rest in
      if 60 <? dom then r else (ws ++ fst r, map (fun _ => (0, string - 1, dom - 1)) ws ++ snd r)
  end.

(** Excluded DOMs (l.597-608). *)
Fixpoint frame_doms (l : list (Z * Z)) (g : grid bool) : result (grid bool) :=
  match l with
  | [] => Ok g
  | (string, dom) :: rest =>
      if 60 <? dom then frame_doms rest g
      else bind (pyidx 86 (string - 1)) (fun s => bind (pyidx 60 (dom - 1)) (fun d => frame_doms rest (upd g 0 s d false)))
  end.

(** [get_data_from_frame] (l.422-650) after the frame objects are read;
    [x_pulses_ids[:, 0]] of an array made of an empty list raises IndexError. *)
Definition read_frame (c : pconfig) (f : frame) : result presult :=
  let doms := if dom_key c then g_doms f else None in
  let times := if time_key c then g_times f else None in
  bind (frame_pulses (quant c) (g_pulses f) {| t_charge := fun _ _ _ => 0%R; t_rows := []; t_ids := []; t_window := (None, None) |}) (fun st =>
  let empty := match t_ids st with [] => true | _ => false end in
  bind (if quant c then if empty then Err IndexError else divide 1 (t_charge st) (t_ids st) (t_rows st) else Ok (t_rows st)) (fun rows =>
  let tw := match times with
            | Some l => let r := frame_times l in (Some (fst r), Some (snd r))
            | None => if time_key c then (Some [], Some []) else (None, None)
            end in
  let g0 : grid bool := fun _ s d => bad_doms s d in
  bind (match doms with
        | Some ms =>
            bind (frame_doms ms g0) (fun g =>
            if discard c then if empty then Err IndexError else bind (drop_excluded 1 g (t_ids st) rows) (fun ri => Ok (g, fst ri, snd ri))
            else Ok (g, rows, t_ids st))
        | None => Ok (g0, rows, t_ids st)
        end) (fun gri =>
  let '(g, rows, ids) := gri in
  Ok {| o_size := 1; o_charge := t_charge st; o_excl := if dom_key c then Some g else None; o_pulses := rows; o_ids := ids;
        o_window := fun _ => t_window st; o_tws := fst tw; o_tw_ids := snd tw |}))).
End Readers.
