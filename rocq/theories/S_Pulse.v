(** Specification for the pulse data module. *)
From Coq Require Import Reals ZArith.
From Verif Require Import Py RList M_Pulse.
Open Scope Z_scope.

(** The pulse belongs to DOM number [d + 1] on string number [s + 1] in event [e]. *)
Definition hits (labels : list nat) (e s d : nat) (p : pulse) : bool :=
  match nth_error labels e with Some i => Nat.eqb i (p_event p) | None => false end
  && (p_string p =? Z.of_nat s + 1) && (p_dom p =? Z.of_nat d + 1).

(** Charge of a DOM. *)
Definition charge_of (labels : list nat) (ps : list pulse) (e s d : nat) : R :=
  Rsum (map p_charge (filter (hits labels e s d) ps)).

(** Pulses of DOMs of the detector; other DOM numbers above 60 are allowed. *)
Definition Valid (labels : list nat) (p : pulse) : Prop :=
  p_dom p <= 60 -> In (p_event p) labels /\ 1 <= p_string p <= 86 /\ 1 <= p_dom p.

(** Times of the accepted pulses of an event. *)
Definition times_of (labels : list nat) (ps : list pulse) (e : nat) : list R :=
  map p_time (filter (fun p => match nth_error labels e with Some i => Nat.eqb i (p_event p) | None => false end && (p_dom p <=? 60)) ps).

(** Smallest and largest time of a list. *)
Definition Spans (w : option R * option R) (ts : list R) : Prop :=
  match ts with
  | [] => w = (None, None)
  | _ => exists lo hi, w = (Some lo, Some hi) /\ In lo ts /\ In hi ts /\ forall t, In t ts -> (lo <= t <= hi)%R
  end.

(** Cells of the detector. *)
Definition cells (size : nat) : list (nat * nat * nat) := list_prod (list_prod (seq 0 size) (seq 0 86)) (seq 0 60).

(** Two results have the same contents. *)
Definition Agree (a b : presult) : Prop :=
  o_size a = o_size b /\ (forall e s d, (e < o_size a)%nat -> o_charge a e s d = o_charge b e s d) /\
  match o_excl a, o_excl b with
  | Some g, Some h => forall e s d, (e < o_size a)%nat -> g e s d = h e s d
  | None, None => True
  | _, _ => False
  end /\ o_pulses a = o_pulses b /\ o_ids a = o_ids b /\ (forall e, (e < o_size a)%nat -> o_window a e = o_window b e) /\
  o_tws a = o_tws b /\ o_tw_ids a = o_tw_ids b.

(** Table of a frame with one event. *)
Definition table_pulses (l : list ((Z * Z) * list (R * R))) : list pulse :=
  flat_map (fun x => map (fun tc => {| p_event := 0; p_string := fst (fst x); p_dom := snd (fst x); p_time := fst tc; p_charge := snd tc |}) (snd x)) l.
Definition table_times (l : list ((Z * Z) * list (R * R))) : list window :=
  flat_map (fun x => map (fun w => {| w_event := 0; w_string := fst (fst x); w_dom := snd (fst x); w_start := fst w; w_stop := snd w |}) (snd x)) l.
Definition table_doms (l : list (Z * Z)) : list om := map (fun x => {| m_event := 0; m_string := fst x; m_dom := snd x |}) l.
Definition table (f : frame) : hfile :=
  {| f_labels := Some [0%nat]; f_pulses := Some (table_pulses (g_pulses f)); f_doms := option_map table_doms (g_doms f);
     f_times := option_map table_times (g_times f) |}.

(** A row of the table of excluded DOMs names DOM number [d + 1] on string
    number [s + 1] in event [e]. *)
Definition names (labels : list nat) (e s d : nat) (m : om) : bool :=
  match nth_error labels e with Some i => Nat.eqb i (m_event m) | None => false end
  && (m_string m =? Z.of_nat s + 1) && (m_dom m =? Z.of_nat d + 1).
Definition ValidM (labels : list nat) (m : om) : Prop :=
  m_dom m <= 60 -> In (m_event m) labels /\ 1 <= m_string m <= 86 /\ 1 <= m_dom m.

(** The same settings without discarding. *)
Definition keeping (c : pconfig) : pconfig := {| quant := quant c; dom_key := dom_key c; time_key := time_key c; discard := false |}.

(** Numbers the reader accepts: string numbers from -85 to 86, DOM numbers from
    -59; DOM numbers above 60 are skipped whatever the rest. *)
Definition Accepted (labels : list nat) (p : pulse) : Prop :=
  p_dom p <= 60 -> In (p_event p) labels /\ -85 <= p_string p <= 86 /\ -59 <= p_dom p.

(** Numbers below one count from the end. *)
Definition hits_wrapped (labels : list nat) (e s d : nat) (p : pulse) : bool :=
  match nth_error labels e with Some i => Nat.eqb i (p_event p) | None => false end && (p_dom p <=? 60)
  && ((p_string p - 1) mod 86 =? Z.of_nat s) && ((p_dom p - 1) mod 60 =? Z.of_nat d).

(** Entry of the time window table, and its DOM with the number of the event. *)
Definition window_row (labels : list nat) (w : window) (row : R * R) (i : pid) : Prop :=
  row = (w_start w, w_stop w) /\
  exists e, nth_error labels e = Some (w_event w) /\ i = (Z.of_nat e, w_string w - 1, w_dom w - 1).
