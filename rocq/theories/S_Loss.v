(** Specification vocabulary for losses.  Only the data types of the model
    (batches, results, terms) are used. *)
From Verif Require Import Py RList.
From Verif Require Import M_Loss.

(** Sum over the first [n] indices. *)
Fixpoint isum (n : nat) (f : nat -> R) : R :=
  match n with 0%nat => 0 | S n' => isum n' f + f n' end.

Definition isum3 (n ns nd : nat) (t : tensor3) : R :=
  isum n (fun e => isum ns (fun s => isum nd (fun d => t e s d))).

(** The sum of all entries of a term. *)
Definition total (t : term) : R :=
  match t with
  | TScalar x => x
  | TEvent n f => isum n f
  | TDom n ns nd f => isum3 n ns nd f
  | TList l => fold_right Rplus 0 l
  end.

(** All pulses belong to an event, string and DOM of the batch. *)
Definition ids_ok (b : batch) : Prop :=
  forall p, In p (b_pulses b) ->
    (p_event p < b_n b /\ p_string p < b_strings b /\ p_dom p < b_doms b)%nat.

(** There is at least one event, string and DOM. *)
Definition nonempty (b : batch) : Prop :=
  (0 < b_n b /\ 0 < b_strings b /\ 0 < b_doms b)%nat.

(** Two terms of the same shape with the same entries. *)
Definition same_term (a b : term) : Prop :=
  match a, b with
  | TScalar x, TScalar y => x = y
  | TEvent n f, TEvent m g => n = m /\ forall e, (e < n)%nat -> f e = g e
  | TDom n ns nd f, TDom n' ns' nd' g =>
      n = n' /\ ns = ns' /\ nd = nd' /\
      forall e s d, (e < n)%nat -> (s < ns)%nat -> (d < nd)%nat ->
        f e s d = g e s d
  | TList l, TList m => l = m
  | _, _ => False
  end.

Inductive same_loss : result loss -> result loss -> Prop :=
| sl_err e : same_loss (Err e) (Err e)
| sl_none : same_loss (Ok LNone) (Ok LNone)
| sl_scalar x : same_loss (Ok (LScalar x)) (Ok (LScalar x))
| sl_terms l m : Forall2 same_term l m ->
    same_loss (Ok (LTerms l)) (Ok (LTerms m)).

(** The measured and predicted values of two batches may differ only at DOMs
    which are excluded by the mask [m]. *)
Definition agree_used (m : nat -> nat -> nat -> bool) (b1 b2 : batch)
  (r1 r2 : results) : Prop :=
  b_n b1 = b_n b2 /\ b_strings b1 = b_strings b2 /\ b_doms b1 = b_doms b2 /\
  b_pulses b1 = b_pulses b2 /\ b_mask b1 = Some m /\ b_mask b2 = Some m /\
  b_time b1 = b_time b2 /\ r_cdf r1 = r_cdf r2 /\
  forall e s d, (e < b_n b1)%nat -> (s < b_strings b1)%nat ->
    (d < b_doms b1)%nat -> m e s d = true ->
    b_true b1 e s d = b_true b2 e s d /\ r_pred r1 e s d = r_pred r2 e s d /\
    r_var r1 e s d = r_var r2 e s d /\ r_logpdf r1 e s d = r_logpdf r2 e s d.

(** One event of a batch as a batch of its own. *)
Definition of_event (e : nat) (p : pulse) : bool := Nat.eqb (p_event p) e.

Definition as_first (p : pulse) : pulse :=
  mk_pulse (p_charge p) (p_quantile p) 0 (p_string p) (p_dom p)
           (p_pdf p) (p_qpdf p).

Definition one_event (b : batch) (e : nat) : batch :=
  mk_batch 1 (b_strings b) (b_doms b)
    (map as_first (filter (of_event e) (b_pulses b)))
    (fun _ s d => b_true b e s d)
    (match b_mask b with
     | Some m => Some (fun _ s d => m e s d) | None => None end)
    (b_time b).

Definition one_result (r : results) (e : nat) : results :=
  mk_results (fun _ s d => r_pred r e s d) (fun _ s d => r_var r e s d)
    (fun _ s d => r_logpdf r e s d) (r_cdf r).
