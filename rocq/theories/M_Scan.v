(** Model of the one-dimensional likelihood scans, [Visualize1DLikelihoodScan]
    (/repo/egenerator/manager/reconstruction/modules/visualization.py).

    Simplifications: exact reals; the cache of functions is that of the model of
    the tray, so that the loss function is the one made from the settings
    (l.66-82); a figure is what is drawn in it, without colours, labels and
    legends; what is printed (l.202-205) is left out; covariances are never drawn
    since [execute] passes none (l.104-117).  The losses are those of the models
    for the data batch, as in the model of the reconstruction. *)
From Verif Require Import RList PyStr M_Trafo M_Opt M_Reco.

(** ** Names of files *)

(** The parts of [plot_file_template]: text, [{parameter}], [{event_counter:0wd}]
    with a width ([{event_counter}] has width 0), and other fields. *)
Inductive piece := Text (s : string) | ParamName | EventCounter (width : nat) | Field (name : string).

(** ['{:0wd}'.format(n)] for a width [w] *)
Definition padded (w n : nat) : string :=
  (zeros (w - String.length (str_of_nat n)) ++ str_of_nat n)%string.

(** The template [reconstruct_testdata] passes
    (/repo/egenerator/manager/source.py l.1352-1353), for the name of the output
    file without its extension.  A name with braces has further fields. *)
Definition scan_template (base : list piece) : list piece :=
  base ++ [Text "_llh_scan_"; EventCounter 8; Text "_"; ParamName].

(** [plot_file.format(parameter=..., event_counter=...)] (l.260-261) *)
Fixpoint format (template : list piece) (parameter : string) (counter : nat) : result string :=
  match template with
  | [] => Ok ""%string
  | p :: rest =>
      bind (match p with
            | Text s => Ok s
            | ParamName => Ok parameter
            | EventCounter w => Ok (padded w counter)
            | Field _ => Err KeyError
            end) (fun s =>
      bind (format rest parameter counter) (fun r => Ok (s ++ r)%string))
  end.

(** ** Figures *)

(** A figure (l.207-262): the points of both curves (value of the parameter, loss
    with the other parameters at the truth, loss with the others at the best fit),
    the levels drawn in both panels, and the lines at truth and best fit. *)
Record figure := {
  f_points : list (R * R * R);
  f_level_truth : R;
  f_level_reco : R;
  f_truth : R;
  f_reco : R
}.

(** [np.linspace(start, stop, num)] *)
Definition linspace (start stop : R) (num : nat) : list R :=
  map (fun k => start + INR k * ((stop - start) / INR (num - 1))) (seq 0 num).

(** [a[0, i]] *)
Definition entry (a : array) (i : nat) : result R :=
  match ar_rows a with
  | r :: _ => match nth_error r i with Some x => Ok x | None => Err IndexError end
  | [] => Err IndexError
  end.

Fixpoint put (i : nat) (v : R) (l : list R) : list R :=
  match l, i with
  | [], _ => []
  | _ :: l', 0%nat => v :: l'
  | x :: l', S i' => x :: put i' v l'
  end.

(** [np.array(a)] and then [a[0, i] = v] (l.173-174, 181-182) *)
Definition set_entry (a : array) (i : nat) (v : R) : result array :=
  match ar_rows a with
  | r :: rs => if Nat.ltb i (length r) then Ok {| ar_shape := ar_shape a; ar_rows := put i v r :: rs |}
               else Err IndexError
  | [] => Err IndexError
  end.

Fixpoint collect {A B} (f : A -> result B) (l : list A) : result (list B) :=
  match l with
  | [] => Ok []
  | x :: l' => bind (f x) (fun y => bind (collect f l') (fun ys => Ok (y :: ys)))
  end.

Section Scan.
  Variable tr : option trafo.
  Variable pname : string.
  (** Settings of the module (l.44-56, 68-75) *)
  Variable fit : list bool.
  Variable in_trafo : bool.
  Variable template : list piece.
  Variable reco_key : string.
  Variable covariance_key : option string.
  (** [manager.models[0].parameter_names] (l.159-160) *)
  Variable names : list string.

  (** What the module is given for a batch: the parameters, the seed and the
      losses, and for every result of a previous module its entry
      'result_trafo', if it has one, with a flag for TensorFlow tensors. *)
  Record event_data := {
    e_truth : array;
    e_seed : array;
    e_losses : list (array -> result R);
    e_results : dict (option (array * bool))
  }.

  (** A call of [loss_function]: its signature fixes the number of columns
      (l.57-59). *)
  Definition loss_function (e : event_data) (params : array) : result R :=
    if list_eqb Nat.eqb (ar_shape params) [num_fitted fit]
    then parameter_loss tr pname (e_losses e) fit in_trafo params (e_seed e)
    else Err ValueError.

  (** One step of the scan (l.170-193) *)
  Definition scan_point (e : event_data) (truth_trafo result_trafo : array) (i : nat) (v : R)
    : result (R * R * R) :=
    bind (set_entry result_trafo i v) (fun p =>
    bind (loss_function e p) (fun llh_reco =>
    bind (set_entry truth_trafo i v) (fun p =>
    bind (loss_function e p) (fun llh_true =>
    bind (inverse_transform tr false p pname true) (fun p =>
    bind (entry p i) (fun x => Ok (x, llh_true, llh_reco))))))).

  (** The figure of one parameter (l.162-258) *)
  Definition scan (e : event_data) (truth_trafo result_trafo truth result : array) (i : nat)
    : Py.result figure :=
    bind (entry truth_trafo i) (fun t =>
    bind (collect (scan_point e truth_trafo result_trafo i) (linspace (t - 1) (t + 1) (Z.to_nat 1000))) (fun points =>
    bind (loss_function e truth_trafo) (fun level_truth =>
    bind (loss_function e result_trafo) (fun level_reco =>
    bind (entry truth i) (fun x =>
    bind (entry result i) (fun y =>
    Ok {| f_points := points; f_level_truth := level_truth; f_level_reco := level_reco; f_truth := x; f_reco := y |})))))).

  (** The files with figures; an exception leaves what has been saved. *)
  Definition files := dict figure.

  (** Loop over the parameters (l.159-262) *)
  Fixpoint scans (e : event_data) (truth_trafo result_trafo truth result : array) (counter i : nat)
    (ns : list string) (f : files) : files * option exn :=
    match ns with
    | [] => (f, None)
    | n :: ns' =>
        match bind (scan e truth_trafo result_trafo truth result i) (fun fig =>
              bind (format template n counter) (fun file => Ok (file, fig))) with
        | Err x => (f, Some x)
        | Ok (file, fig) => scans e truth_trafo result_trafo truth result counter (S i) ns' (dset file fig f)
        end
    end.

  (** What [make_1d_llh_scans] does before the loop (l.143-158), and the lookups
      and the transformation of [execute] (l.99-108) *)
  Definition prepare (e : event_data) : Py.result (array * array * array * array) :=
    bind (match dget reco_key (e_results e) with
          | Some (Some r) => Ok r
          | _ => Err KeyError
          end) (fun '(result_trafo, is_tf) =>
    bind (match covariance_key with
          | Some k => match dget k (e_results e) with Some _ => Ok tt | None => Err KeyError end
          | None => Ok tt
          end) (fun _ =>
    bind (transform tr (e_truth e) pname true) (fun truth_trafo =>
    if negb (Nat.eqb (length (ar_rows result_trafo)) 1) then Err AssertionError
    else if negb (Nat.eqb (length (ar_rows truth_trafo)) 1) then Err AssertionError
    else
      bind (inverse_transform tr false truth_trafo pname true) (fun truth =>
      bind (inverse_transform tr is_tf result_trafo pname true) (fun result =>
      Ok (truth_trafo, result_trafo, truth, result)))))).

  (** [execute] (l.84-120): the files, the counter and an exception *)
  Definition execute (e : event_data) (counter : nat) (f : files) : files * nat * option exn :=
    match prepare e with
    | Err x => (f, counter, Some x)
    | Ok (truth_trafo, result_trafo, truth, result) =>
        match scans e truth_trafo result_trafo truth result counter 0 names f with
        | (f', Some x) => (f', counter, Some x)
        | (f', None) => (f', S counter, None)
        end
    end.

  (** The module of a tray for a sequence of batches; the first exception ends
      the reconstruction. *)
  Fixpoint run (es : list event_data) (counter : nat) (f : files) : files * nat * option exn :=
    match es with
    | [] => (f, counter, None)
    | e :: es' =>
        match execute e counter f with
        | (f', c, Some x) => (f', c, Some x)
        | (f', c, None) => run es' c f'
        end
    end.
End Scan.
