(** Specification of what the command line scripts may do to files
    (independent of [M_Scripts] apart from the type of the files). *)
From Verif Require Import Py PyStr M_Scripts.

(** [q] is [p] or lies below it *)
Definition Under (p q : path) : Prop := exists r, q = p ++ r.

(** The file [q] is there with this content *)
Inductive Content : disk -> path -> string -> Prop :=
  | Content_here q c d : Content ((q, c) :: d) q c
  | Content_later q c p c' d : q <> p -> Content d q c -> Content ((p, c') :: d) q c.

Definition Missing (d : disk) (q : path) : Prop := forall c, ~ Content d q c.

(** A file of this name is as it was *)
Definition Untouched (d d' : disk) (q : path) : Prop := forall c, Content d q c <-> Content d' q c.

(** Something exists at [p] *)
Definition Present (d : disk) (p : path) : Prop := exists q c, Under p q /\ Content d q c.

(** [settings[k1][k2]...] *)
Inductive Setting : value -> list string -> value -> Prop :=
  | Setting_here v : Setting v [] v
  | Setting_in d k ks v x : dget k d = Some v -> Setting v ks x -> Setting (VDict d) (k :: ks) x.

(** Python's truth value *)
Definition True_value (v : value) : Prop :=
  v <> VNone /\ v <> VBool false /\ v <> VInt 0 /\ v <> VStr "" /\ v <> VList [] /\ v <> VTuple [] /\ v <> VDict [].

(** Directory names whose last part has an extension, such as 'v1.2' *)
Definition HasExtension (p : path) : Prop :=
  exists up base ext, p = up ++ [(base ++ String "." ext)%string] /\ has_non_dot base = true /\ before_last_dot ext = None.

(** The directory without the extension *)
Inductive Stripped : path -> path -> Prop :=
  | Stripped_ext up base ext : has_non_dot base = true -> before_last_dot ext = None ->
      Stripped (up ++ [(base ++ String "." ext)%string]) (up ++ [base])
  | Stripped_same p : ~ HasExtension p -> Stripped p p.

(** The files a saved component consists of *)
Inductive Output : list written -> path -> string -> Prop :=
  | Output_conf q conf data l : Output (Part q conf data :: l) (q ++ ["configuration.yaml"]) conf
  | Output_data q conf data l : Output (Part q conf data :: l) (q ++ ["data.pickle"]) data
  | Output_more q c l : Output (More q c :: l) q c
  | Output_later w q c l : Output l q c -> Output (w :: l) q c.

(** No file is written twice *)
Definition Once (l : list written) : Prop :=
  forall l1 w l2, l = l1 ++ w :: l2 -> forall q c c', Output [w] q c -> ~ Output l2 q c'.

(** The files that the training goes on changing after the first saving *)
Definition Changing (dirs : list path) (q : path) : Prop :=
  (exists k, q = ["logs"; k; "events"]) \/
  exists w, In w dirs /\ (q = w ++ ["training"; "training_steps.yaml"] \/ q = w ++ ["model_checkpoint.yaml"]).

(** Names of seeds that are not the true values *)
Inductive SeedNames : value -> list value -> Prop :=
  | Seed_one s : s <> "x_parameters"%string -> SeedNames (VStr s) [VStr s]
  | Seed_true : SeedNames (VStr "x_parameters") []
  | Seed_list l r : Others l r -> SeedNames (VList l) r
  | Seed_tuple l r : Others l r -> SeedNames (VTuple l) r
  | Seed_keys (d : dict value) r : Others (map (fun kv => VStr (fst kv)) d) r -> SeedNames (VDict d) r
with Others : list value -> list value -> Prop :=
  | Others_nil : Others [] []
  | Others_true l r : Others l r -> Others (VStr "x_parameters" :: l) r
  | Others_keep v l r : v <> VStr "x_parameters" -> Others l r -> Others (v :: l) (v :: r).

(** The configuration read from these files, in this order; at least one *)
Definition Configuration (parse : list (path * string) -> result value) (files : list path) (d : disk) (config : value) : Prop :=
  files <> [] /\ exists contents, Forall2 (Content d) files contents /\ parse (List.combine files contents) = Ok config.

(** The configuration file of a reconstruction: the one that is given, otherwise the
    first of the list *)
Inductive ConfigFile (files : list path) : option path -> path -> Prop :=
  | ConfigFile_given f : ConfigFile files (Some f) f
  | ConfigFile_first f rest : files = f :: rest -> ConfigFile files None f.

(** The evaluation module: none without settings or if its name is None *)
Inductive EvaluationOf {Module : Type} (make : value -> result Module) : value -> option Module -> Prop :=
  | Evaluation_absent (d : dict value) : dget "evaluation_module_settings" d = None -> EvaluationOf make (VDict d) None
  | Evaluation_none config : Setting config ["evaluation_module_settings"; "evaluation_module"] VNone -> EvaluationOf make config None
  | Evaluation_made config s name m : Setting config ["evaluation_module_settings"] s -> Setting s ["evaluation_module"] name -> name <> VNone ->
      make s = Ok m -> EvaluationOf make config (Some m).
