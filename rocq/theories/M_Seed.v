(** Model of the seed loader (egenerator/data/modules/misc/seed_loader.py) and of
    the filter (egenerator/data/modules/filters/general_filter.py).

    Simplifications: values are exact reals (no NaN); modules are configured;
    columns of a table of a file have equal lengths and the default index;
    logging is left out. *)
From Coq Require Import Reals.
From Verif Require Import Py RList.
Open Scope R_scope.

(** ** Seed loader *)

(** Tables of a file: columns by name *)
Definition table := dict (list R).

(** Settings: names of the parameters, missing values *)
Record lsettings := mk_lsettings {
  ls_params : list string; ls_missing : option R; ls_missing_dict : dict R }.

(** The fill value of a parameter which does not exist (l.165-173, 240-255) *)
Definition fill (c : lsettings) (l : string) : option R :=
  match dget l (ls_missing_dict c) with Some v => Some v | None => ls_missing c end.

(** The loop over the parameters (l.162-173); a fill value is repeated as often
    as the parameter before has events. *)
Fixpoint hdf_params (c : lsettings) (t : table) (names : list string) (acc : list (list R))
  : result (list (list R)) :=
  match names with
  | [] => Ok acc
  | l :: names' =>
      match dget l t with
      | Some column => hdf_params c t names' (acc ++ [column])
      | None =>
          match fill c l with
          | Some v =>
              match rev acc with
              | [] => Err IndexError
              | previous :: _ => hdf_params c t names' (acc ++ [repeat v (length previous)])
              end
          | None => Err KeyError
          end
      end
  end.

(** [np.array(columns).T] (l.184, 263): rows, one per event *)
Definition transpose (cols : list (list R)) : list (list R) :=
  map (fun k => map (fun c => nth k c 0) cols) (seq 0 (length (hd [] cols))).

(** The loop over the seeds (l.156-188).  Every exception skips the file, as does
    access to the file after it has been closed (l.179-180). *)
Fixpoint hdf_loop (c : lsettings) (file : dict table) (is_open : bool) (seeds : list string)
  : option (list (list (list R))) :=
  match seeds with
  | [] => Some []
  | n :: seeds' =>
      if negb is_open then None
      else match dget n file with
           | None => None
           | Some t =>
               match hdf_params c t (ls_params c) [] with
               | Err _ => None
               | Ok cols =>
                   match hdf_loop c file false seeds' with
                   | None => None
                   | Some arrays => Some (transpose cols :: arrays)
                   end
               end
           end
  end.

(** The check of the numbers of events and the result (l.190-196, 269-275);
    without seeds [num_events] is not assigned. *)
Definition checked (arrays : list (list (list R))) : result (option (nat * list (list (list R)))) :=
  match rev arrays with
  | [] => Err UnboundLocalError
  | l :: _ =>
      if forallb (fun a => Nat.eqb (length a) (length l)) arrays
      then Ok (Some (length l, arrays)) else Err ValueError
  end.

(** [get_data_from_hdf] (l.129-196): number of events and arrays; None if the
    file is skipped *)
Definition get_data_from_hdf (c : lsettings) (seeds : list string) (file : dict table)
  : result (option (nat * list (list (list R)))) :=
  match hdf_loop c file true seeds with
  | None => Ok None
  | Some arrays => checked arrays
  end.

(** Objects of a frame used as seeds: a particle with attributes, position and
    direction or a map *)
Inductive label := Particle (attrs pos dir : dict R) | Labels (d : dict R).

Definition getattr (l : string) (attrs : dict R) : result R :=
  match dget l attrs with Some v => Ok v | None => Err AttributeError end.

(** One parameter (l.232-254) *)
Definition frame_param (c : lsettings) (obj : label) (l : string) : result R :=
  let missing := match fill c l with Some v => Ok v | None => Err KeyError end in
  match obj with
  | Particle attrs pos dir =>
      if dmem l attrs then getattr l attrs
      else if smem l ["x"; "y"; "z"] then getattr l pos
      else if smem l ["zenith"; "azimuth"] then getattr l dir
      else missing
  | Labels d => match dget l d with Some v => Ok v | None => missing end
  end.

Fixpoint frame_params (c : lsettings) (obj : label) (names : list string) : result (list (list R)) :=
  match names with
  | [] => Ok []
  | l :: names' =>
      bind (frame_param c obj l) (fun v =>
      bind (frame_params c obj names') (fun vs => Ok ([v] :: vs)))
  end.

(** The loop over the seeds (l.226-267); KeyError skips the frame (None), other
    exceptions pass. *)
Fixpoint frame_loop (c : lsettings) (frame : dict label) (seeds : list string)
  : result (option (list (list (list R)))) :=
  match seeds with
  | [] => Ok (Some [])
  | n :: seeds' =>
      match dget n frame with
      | None => Ok None
      | Some obj =>
          match frame_params c obj (ls_params c) with
          | Err KeyError => Ok None
          | Err e => Err e
          | Ok cols =>
              match frame_loop c frame seeds' with
              | Ok (Some arrays) => Ok (Some (transpose cols :: arrays))
              | r => r
              end
          end
      end
  end.

(** [get_data_from_frame] (l.198-275) *)
Definition get_data_from_frame (c : lsettings) (seeds : list string) (frame : dict label)
  : result (option (nat * list (list (list R)))) :=
  match frame_loop c frame seeds with
  | Err e => Err e
  | Ok None => Ok None
  | Ok (Some arrays) => checked arrays
  end.

(** ** Filter *)

(** A column is an index into a vector or a name *)
Inductive column := Index (i : Z) | Name (s : string).
Definition constraint := (string * column * string * R)%type.

(** The comparison (l.135-146, 192-203) *)
Definition compare (op : string) (v threshold : R) : result bool :=
  if String.eqb op ">" then Ok (Rltb threshold v)
  else if String.eqb op ">=" then Ok (Rleb threshold v)
  else if String.eqb op "<=" then Ok (Rleb v threshold)
  else if String.eqb op "<" then Ok (Rltb v threshold)
  else if String.eqb op "==" then Ok (Reqb v threshold)
  else Err ValueError.

Fixpoint compare_all (op : string) (vs : list R) (threshold : R) : result (list bool) :=
  match vs with
  | [] => bind (compare op 0 threshold) (fun _ => Ok [])
  | v :: vs' =>
      bind (compare op v threshold) (fun b =>
      bind (compare_all op vs' threshold) (fun bs => Ok (b :: bs)))
  end.

(** [np.logical_and] of two arrays of one axis: an array of length one is
    repeated. *)
Definition logical_and (a b : list bool) : result (list bool) :=
  if Nat.eqb (length a) (length b) then Ok (map (fun x => fst x && snd x) (combine a b))
  else match a, b with
       | [x], _ => Ok (map (andb x) b)
       | _, [y] => Ok (map (fun x => x && y) a)
       | _, _ => Err ValueError
       end.

(** Tables of a file: items of vectors with their positions in the vector, or
    columns by name *)
Inductive ftable := FVector (rows : list (Z * R)) | FColumns (t : table).

(** The values of a constraint (l.124-133); a table with the columns item and
    vector_index is an [FVector]. *)
Definition hdf_values (file : dict ftable) (key : string) (col : column) : result (list R) :=
  match dget key file with
  | None => Err KeyError
  | Some t =>
      match col, t with
      | Index i, FVector rows => Ok (map snd (filter (fun r => Z.eqb (fst r) i) rows))
      | Name s, FColumns d => match dget s d with Some v => Ok v | None => Err KeyError end
      | Index _, FColumns d => Err KeyError
      | Name s, FVector rows =>
          if String.eqb s "item" then Ok (map snd rows)
          else if String.eqb s "vector_index" then Ok (map (fun r => IZR (fst r)) rows)
          else Err KeyError
      end
  end.

(** [get_event_filter_mask_from_hdf] (l.93-150).  Simplified:
    pandas' rules for named columns whose length differs from the number of
    events are replaced by a ValueError. *)
Fixpoint hdf_mask (file : dict ftable) (cs : list constraint) (mask : list bool)
  : result (list bool) :=
  match cs with
  | [] => Ok mask
  | (key, col, op, threshold) :: cs' =>
      bind (hdf_values file key col) (fun vs =>
      bind (compare_all op vs threshold) (fun m =>
      match col with
      | Index _ => bind (logical_and mask m) (hdf_mask file cs')
      | Name _ =>
          if Nat.eqb (length mask) (length m) then bind (logical_and mask m) (hdf_mask file cs')
          else Err ValueError
      end))
  end.
Definition filter_hdf (cs : list constraint) (file : dict ftable) (num_events : nat)
  : result (list bool) := hdf_mask file cs (repeat true num_events).

(** Objects of a frame: vectors, maps and objects with attributes *)
Inductive fobject := OVector (l : list R) | OMap (d attrs : dict R) | OObject (attrs : dict R).

(** [v[i]] with Python's negative positions *)
Definition vector_item (l : list R) (i : Z) : result R :=
  let n := Z.of_nat (length l) in
  let k := if (i <? 0)%Z then (i + n)%Z else i in
  if ((0 <=? k) && (k <? n))%Z then Ok (nth (Z.to_nat k) l 0) else Err IndexError.

(** The values of a constraint (l.182-190): with a name the table is asked for
    [key]. *)
Definition frame_values (frame : dict fobject) (key : string) (col : column) : result (list R) :=
  match dget key frame with
  | None => Err KeyError
  | Some obj =>
      match col with
      | Index i =>
          match obj with
          | OVector l => bind (vector_item l i) (fun v => Ok [v])
          | OMap _ _ | OObject _ => Err TypeError
          end
      | Name _ =>
          match obj with
          | OVector _ => Err AttributeError
          | OMap d attrs =>
              match dget key d with
              | Some v => Ok [v]
              | None => bind (getattr key attrs) (fun v => Ok [v])
              end
          | OObject _ => Err TypeError
          end
      end
  end.

(** [get_event_filter_mask_from_frame] (l.152-207) *)
Fixpoint frame_mask (frame : dict fobject) (cs : list constraint) (mask : list bool)
  : result (list bool) :=
  match cs with
  | [] => Ok mask
  | (key, col, op, threshold) :: cs' =>
      bind (frame_values frame key col) (fun vs =>
      bind (compare_all op vs threshold) (fun m =>
      bind (logical_and mask m) (frame_mask frame cs')))
  end.
Definition filter_frame (cs : list constraint) (frame : dict fobject) (num_events : nat)
  : result (list bool) := frame_mask frame cs (repeat true num_events).
