(** * EmitSpec.v: what a manifest written as yaml looks like, and what is read back from it. *)
From Coq Require Import Floats.SpecFloat.
From Coq Require Import Sorting.Permutation.
From Verif Require Import Model.Go Model.Types Model.Decode Spec.ParseSpec Spec.DecodeSpec.

(** ** The keys of a document *)
Definition HasKeys (n : node) (ks : list string) : Prop :=
  exists vs, List.length vs = List.length ks /\ n = NMap (combine (map NStr ks) vs).
(** The value under a key of a mapping. *)
Definition Under (n : node) (k : string) (x : node) : Prop := exists m, n = NMap m /\ In (NStr k, x) m.
Definition resourceKeys (r : Resource) : list string :=
  match r with
  | RPipeline _ => pipelineKeys
  | RCron _ => ["version"; "kind"; "type"; "name"; "spec"]
  | RSecret _ => ["version"; "kind"; "type"; "name"; "data"; "get"]
  | RSignature _ => ["version"; "kind"; "hmac"]
  | RRegistry _ => ["version"; "kind"; "type"; "data"]
  end.
Definition StepTree (c : option Container) (n : node) : Prop :=
  match c with None => n = NNull | Some _ => HasKeys n stepKeys end.
(** The keys of a mapping are in order. *)
Fixpoint InOrder (less : node -> node -> bool) (m : list (node * node)) : Prop :=
  match m with
  | [] => True
  | e :: m' => (forall x, In x m' -> less (fst x) (fst e) = false) /\ InOrder less m'
  end.

(** ** Reading back *)
Definition Both {A} (R : A -> A -> Prop) (o o' : option A) : Prop :=
  o = None /\ o' = None \/ exists x y, o = Some x /\ o' = Some y /\ R x y.
(** The entries of a map in some order, each with a value that is related. *)
Definition MapAgain {A} (R : A -> A -> Prop) (m m' : smap A) : Prop :=
  exists m1, Permutation m m1 /\ Forall2 (fun e e' => fst e = fst e' /\ R (snd e) (snd e')) m1 m'.

(** Floats that are whole may come back as integers. *)
Inductive ValueAgain : value -> value -> Prop :=
| again_null : ValueAgain VNull VNull
| again_bool b : ValueAgain (VBool b) (VBool b)
| again_int z : ValueAgain (VInt z) (VInt z)
| again_float f : ValueAgain (VFloat f) (VFloat f)
| again_whole f z : f = binary_normalize 53 1024 z 0 false -> ValueAgain (VFloat f) (VInt z)
| again_str s : ValueAgain (VStr s) (VStr s)
| again_list l l' : Forall2 ValueAgain l l' -> ValueAgain (VList l) (VList l')
| again_map m m1 m' : Permutation m m1 ->
    Forall2 (fun e e' => ValueAgain (fst e) (fst e') /\ ValueAgain (snd e) (snd e')) m1 m' -> ValueAgain (VMap m) (VMap m').
(** A variable without value and secret is lost, and so is the value beside a secret. *)
Inductive VariableAgain : option Variable_ -> option Variable_ -> Prop :=
| variable_none : VariableAgain None None
| variable_secret v s : s <> "" -> VariableAgain (Some {| v_value := v; v_secret := s |}) (Some {| v_value := ""; v_secret := s |})
| variable_value v : v <> "" -> VariableAgain (Some {| v_value := v; v_secret := "" |}) (Some {| v_value := v; v_secret := "" |})
| variable_empty : VariableAgain (Some {| v_value := ""; v_secret := "" |}) None.
Inductive ParameterAgain : option Parameter_ -> option Parameter_ -> Prop :=
| parameter_none : ParameterAgain None None
| parameter_secret v s : s <> "" -> ParameterAgain (Some {| p_value := v; p_secret := s |}) (Some {| p_value := VNull; p_secret := s |})
| parameter_value v v' : v <> VNull -> v <> VStr "" -> ValueAgain v v' ->
    ParameterAgain (Some {| p_value := v; p_secret := "" |}) (Some {| p_value := v'; p_secret := "" |})
| parameter_empty v : v = VNull \/ v = VStr "" -> ParameterAgain (Some {| p_value := v; p_secret := "" |}) None.

Definition BuildAgain (b b' : Build) : Prop :=
  Permutation (b_args b) (b_args b') /\ b_cache_from b' = b_cache_from b /\ b_context b' = b_context b /\
  b_dockerfile b' = b_dockerfile b /\ b_image b' = b_image b /\ Permutation (b_labels b) (b_labels b').
Definition ConditionsAgain (w w' : Conditions) : Prop :=
  w_action w' = w_action w /\ w_cron w' = w_cron w /\ w_ref w' = w_ref w /\ w_repo w' = w_repo w /\
  w_instance w' = w_instance w /\ w_target w' = w_target w /\ w_event w' = w_event w /\ w_branch w' = w_branch w /\
  w_status w' = w_status w /\ w_paths w' = w_paths w /\ Permutation (w_matrix w) (w_matrix w').
Definition ContainerAgain (c c' : Container) : Prop :=
  Both BuildAgain (ct_build c) (ct_build c') /\ ct_command c' = ct_command c /\ ct_commands c' = ct_commands c /\
  ct_detach c' = ct_detach c /\ ct_depends c' = ct_depends c /\ ct_devices c' = ct_devices c /\ ct_dns c' = ct_dns c /\
  ct_dns_search c' = ct_dns_search c /\ ct_entrypoint c' = ct_entrypoint c /\
  MapAgain VariableAgain (ct_environment c) (ct_environment c') /\ ct_extra_hosts c' = ct_extra_hosts c /\
  ct_failure c' = ct_failure c /\ ct_image c' = ct_image c /\ ct_network c' = ct_network c /\ ct_name c' = ct_name c /\
  ct_ports c' = ct_ports c /\ ct_privileged c' = ct_privileged c /\ ct_pull c' = ct_pull c /\ ct_push c' = ct_push c /\
  ct_resources c' = ct_resources c /\ MapAgain ParameterAgain (ct_settings c) (ct_settings c') /\
  ct_shell c' = ct_shell c /\ ct_user c' = ct_user c /\ ct_volumes c' = ct_volumes c /\
  ConditionsAgain (ct_when c) (ct_when c') /\ ct_working_dir c' = ct_working_dir c.
Definition PipelineAgain (p p' : Pipeline) : Prop :=
  pi_version p' = pi_version p /\ pi_kind p' = pi_kind p /\ pi_type p' = pi_type p /\ pi_name p' = pi_name p /\
  pi_clone p' = pi_clone p /\ pi_concurrency p' = pi_concurrency p /\ pi_depends p' = pi_depends p /\
  Permutation (pi_node p) (pi_node p') /\ pi_platform p' = pi_platform p /\ pi_pull_secrets p' = pi_pull_secrets p /\
  Forall2 (Both ContainerAgain) (pi_services p) (pi_services p') /\ Forall2 (Both ContainerAgain) (pi_steps p) (pi_steps p') /\
  ConditionsAgain (pi_trigger p) (pi_trigger p') /\ pi_volumes p' = pi_volumes p /\ pi_workspace p' = pi_workspace p.
Inductive ResourceAgain : Resource -> Resource -> Prop :=
| again_cron c : ResourceAgain (RCron c) (RCron c)
| again_secret s : ResourceAgain (RSecret s) (RSecret s)
| again_signature s : ResourceAgain (RSignature s) (RSignature s)
| again_registry g g' : rg_version g' = rg_version g -> rg_kind g' = rg_kind g -> rg_type g' = rg_type g ->
    Permutation (rg_data g) (rg_data g') -> ResourceAgain (RRegistry g) (RRegistry g')
| again_pipeline p p' : PipelineAgain p p' -> ResourceAgain (RPipeline p) (RPipeline p').

(** ** Values as Go has them *)
(** Negative zero is written as -0, which is an integer. *)
Definition Regular (f : float64) : Prop := f <> S754_zero true.
Definition ScalarValue (v : value) : Prop := match v with VList _ | VMap _ => False | _ => True end.
Inductive YamlValue : value -> Prop :=
| yaml_null : YamlValue VNull
| yaml_bool b : YamlValue (VBool b)
| yaml_int z : YamlValue (VInt z)
| yaml_float f : Regular f -> YamlValue (VFloat f)
| yaml_str s : YamlValue (VStr s)
| yaml_list l : (forall v, In v l -> YamlValue v) -> YamlValue (VList l)
| yaml_map m : (forall k v, In (k, v) m -> ScalarValue k /\ YamlValue k /\ YamlValue v) -> YamlValue (VMap m).
(** A mapping that would be read as the reference to a secret. *)
Definition Reference (v : value) : Prop :=
  exists m x, v = VMap m /\ In (VStr "from_secret", x) m /\ ScalarValue x /\ x <> VNull /\ x <> VStr "".
Definition YamlParameter (p : Parameter_) : Prop := p_secret p <> "" \/ YamlValue (p_value p) /\ ~ Reference (p_value p).
Definition YamlContainer (c : Container) : Prop :=
  (forall k p, In (k, Some p) (ct_settings c) -> YamlParameter p) /\
  (forall p, In (Some p) (ct_ports c) -> Fits (po_port p) /\ Fits (po_host p)) /\
  (forall r o, ct_resources c = Some r -> re_limits r = Some o \/ re_requests r = Some o ->
     Regular (ro_cpu o) /\ Fits (ro_memory o)).
Definition YamlPipeline (p : Pipeline) : Prop :=
  Fits (cl_depth (pi_clone p)) /\ Fits (pi_concurrency p) /\
  (forall c, In (Some c) (pi_services p) \/ In (Some c) (pi_steps p) -> YamlContainer c) /\
  (forall v d, In (Some v) (pi_volumes p) -> vo_empty v = Some d -> Fits (ve_size d)).
Definition YamlResource (r : Resource) : Prop := match r with RPipeline p => YamlPipeline p | _ => True end.

(** ** The library *)
Definition Numeric (s : string) : Prop := exists c r, s = String c r /\ In c (list_ascii_of_string "0123456789+-.").
(** A float is read back as itself or, when it is whole, as an integer. *)
Definition FloatTree (floatNode : float64 -> node) : Prop := forall f, Regular f ->
  (exists s, Numeric s /\ floatNode f = NFloat s f) \/
  (exists s z, Numeric s /\ floatNode f = NInt s z /\ binary_normalize 53 1024 z 0 false = f).
(** The text of a tree is at least one line, none of them too long, with a carriage return or like a separator, and is read back. *)
Definition Legible (render : node -> string) (read : string -> option node) (n : node) : Prop :=
  read (render n) = Some n /\ exists body, body <> [] /\ render n = text body /\
    Forall (fun l => Short l /\ Plain l /\ ~ In NL (list_ascii_of_string l) /\ ~ In CR (list_ascii_of_string l)) body.
