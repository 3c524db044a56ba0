(** * LegacySpec.v: what converting a 0.8 configuration must give. *)
From Coq Require Import Sorting.Sorted Sorting.Permutation.
From Verif Require Import Model.Go Model.Types Model.Decode Model.Quote Model.Signer Model.Legacy.
From Verif Require Spec.NameSpec.

(** No null in the lists of volumes and secrets. *)
Definition Complete (c : LContainer) : Prop := ~ In None (lc_volumes c) /\ ~ In None (lc_secrets c).
Definition CompleteConfig (g : LConfig) : Prop :=
  forall c, In c (lg_clone g) \/ In c (lg_pipeline g) \/ In c (lg_services g) -> Complete c.

(** ** One container *)
(** The last secret whose upper-cased target is [k] wins; a literal variable counts when no
    secret has that target. *)
Definition SecretFor (c : LContainer) (k source : string) : Prop :=
  exists before s after, lc_secrets c = before ++ Some s :: after /\
    toUpper (ls_target s) = k /\ ls_source s = source /\
    forall s', In (Some s') after -> toUpper (ls_target s') <> k.
Definition RightVariable (c : LContainer) (k : string) (v : option Variable_) : Prop :=
  (exists source, SecretFor c k source /\ v = Some {| v_value := ""; v_secret := source |}) \/
  ((forall s, In (Some s) (lc_secrets c) -> toUpper (ls_target s) <> k) /\
   exists x, In (k, x) (lc_environment c) /\ v = Some {| v_value := x; v_secret := "" |}).
Definition RightEnvironment (c : LContainer) (m : smap (option Variable_)) : Prop :=
  NoDup (mkeys (lc_environment c)) -> NoDup (mkeys m) /\
  forall k v, mget k m = Some v <-> RightVariable c k v.
Definition Promoted (a b : string) : Prop :=
  ((a = "deploy" \/ a = "deployment") /\ b = "promote") \/ (a <> "deploy" /\ a <> "deployment" /\ b = a).
Definition RightWhen (w : LConstraints) (w' : Conditions) : Prop :=
  w_ref w' = lw_ref w /\ w_repo w' = lw_repo w /\ w_instance w' = lw_instance w /\
  w_target w' = lw_environment w /\ w_branch w' = lw_branch w /\ w_status w' = lw_status w /\
  w_matrix w' = lw_matrix w /\
  Forall2 Promoted (c_include (lw_event w)) (c_include (w_event w')) /\
  Forall2 Promoted (c_exclude (lw_event w)) (c_exclude (w_event w')) /\
  w_action w' = noCond /\ w_cron w' = noCond /\ w_paths w' = noCond.
Definition RightMount (v : option LVolume) (m : option VolumeMount) : Prop :=
  exists v0 m0, v = Some v0 /\ m = Some m0 /\ vm_path m0 = lv_dest v0 /\ vm_name m0 = hexEncode (lv_source v0).
(** Everything but the name. *)
Definition RightContainer (c : LContainer) (c' : Container) : Prop :=
  ct_image c' = lc_image c /\ ct_detach c' = lc_detached c /\ ct_command c' = lc_command c /\
  ct_commands c' = lc_commands c /\ ct_dns c' = lc_dns c /\ ct_dns_search c' = lc_dns_search c /\
  ct_entrypoint c' = lc_entrypoint c /\ ct_extra_hosts c' = lc_extra_hosts c /\
  ct_privileged c' = lc_privileged c /\
  (lc_pull c = true -> ct_pull c' = "always") /\ (lc_pull c = false -> ct_pull c' = "if-not-exists") /\
  RightEnvironment c (ct_environment c') /\
  Permutation (ct_settings c') (map (fun e => (fst e, Some {| p_value := snd e; p_secret := "" |})) (lc_vargs c)) /\
  Forall2 RightMount (lc_volumes c) (ct_volumes c') /\
  RightWhen (lc_constraints c) (ct_when c') /\
  ct_build c' = None /\ ct_depends c' = [] /\ ct_devices c' = [] /\ ct_failure c' = "" /\ ct_network c' = "" /\
  ct_ports c' = [] /\ ct_push c' = None /\ ct_resources c' = None /\ ct_shell c' = "" /\ ct_user c' = "" /\
  ct_working_dir c' = "".
(** The step added when the configuration has no clone section and the environment asks for it. *)
Definition DefaultClone (c : Container) : Prop :=
  exists name, c =
    {| ct_build := None; ct_command := []; ct_commands := []; ct_detach := false; ct_depends := [];
       ct_devices := []; ct_dns := []; ct_dns_search := []; ct_entrypoint := []; ct_environment := [];
       ct_extra_hosts := []; ct_failure := ""; ct_image := "plugins/git"; ct_network := ""; ct_name := name;
       ct_ports := []; ct_privileged := false; ct_pull := "if-not-exists"; ct_push := None; ct_resources := None;
       ct_settings := []; ct_shell := ""; ct_user := ""; ct_volumes := []; ct_when := noConds;
       ct_working_dir := "" |}.

(** ** Names: kept, unless an earlier step ended up with the name; then the index is appended. *)
Definition RightNames (orig final : list string) : Prop :=
  length final = length orig /\
  forall i o f, nth_error orig i = Some o -> nth_error final i = Some f ->
    (~ In o (firstn i final) /\ f = o) \/ (In o (firstn i final) /\ f = (o +++ "_" +++ itoa_nat i)%string).

(** ** Volumes *)
Definition sources (g : LConfig) : list string :=
  flat_map (fun v => match v with Some v => [lv_source v] | None => [] end)
    (flat_map lc_volumes (lg_pipeline g ++ lg_services g)).
Definition HostVolume (v : option Volume) (source : string) : Prop :=
  exists v0, v = Some v0 /\ vo_name v0 = hexEncode source /\ vo_empty v0 = None /\
    vo_host v0 = Some {| vh_path := source |}.
(** One host volume per distinct source. *)
Definition RightVolumes (g : LConfig) (vs : list (option Volume)) : Prop :=
  exists srcs, NoDup srcs /\ (forall s, In s srcs <-> In s (sources g)) /\ Forall2 HostVolume vs srcs.

(** ** Secrets *)
Definition RightSecret (g : LConfig) (s : Secret) : Prop :=
  exists d, In (se_name s, d) (lg_secrets g) /\ se_kind s = "secret" /\ se_data s = "" /\ se_type s = "" /\
    se_version s = "" /\ se_get_key s = "" /\
    (ld_driver d = "vault" ->
       (forall x, In ("path", x) (ld_opts d) -> se_get_path s = x) /\
       (~ In "path" (mkeys (ld_opts d)) -> se_get_path s = "") /\
       (forall x, In ("key", x) (ld_opts d) -> se_get_name s = x) /\
       (~ In "key" (mkeys (ld_opts d)) -> se_get_name s = "")) /\
    (ld_driver d <> "vault" -> se_get_name s = "" /\
       (ld_path d <> "" -> se_get_path s = ld_path d) /\ (ld_path d = "" -> se_get_path s = ld_vault d)).
Definition Before (a b : string) : Prop := String.compare a b = Lt.

(** ** Branches *)
Definition NoTriggerBut (t : Conditions) (rf br : Condition) : Prop :=
  t = {| w_action := noCond; w_cron := noCond; w_ref := rf; w_repo := noCond; w_instance := noCond;
         w_target := noCond; w_event := noCond; w_branch := br; w_status := noCond; w_paths := noCond;
         w_matrix := [] |}.
Definition TagStep (c : Container) : Prop := In "tag" (c_include (w_event (ct_when c))).
Definition RightTrigger (branches : Condition) (steps : list Container) (t : Conditions) : Prop :=
  (c_include branches = [] \/ c_exclude branches <> [] -> NoTriggerBut t noCond branches) /\
  (c_include branches <> [] -> c_exclude branches = [] ->
   exists tags, NoTriggerBut t
     {| c_include := "refs/pull/**" :: "refs/pull-requests/**" :: "refs/merge-requests/**" ::
          (map (fun b => "refs/heads/" +++ b)%string (c_include branches) ++ tags);
        c_exclude := [] |} noCond /\
     ((exists c, In c steps /\ TagStep c) -> tags = ["refs/tags/**"]) /\
     ((forall c, In c steps -> ~ TagStep c) -> tags = [])).

(** ** Matrix *)
Definition matching (w environ : smap string) : smap string :=
  filter (fun kv => match mget (fst kv) environ with Some v => String.eqb v (snd kv) | None => false end) w.
Definition CopiesOf (environ : smap string) (c : Container) (l : list Container) : Prop :=
  (w_matrix (ct_when c) = [] -> l = [c]) /\
  (w_matrix (ct_when c) <> [] -> l = repeat c (length (matching (w_matrix (ct_when c)) environ))).
(** The pipeline of one combination, before substitution. *)
Definition AxisPipeline (p : Pipeline) (index : nat) (environ : smap string) (q : Pipeline) : Prop :=
  pi_name q = ("matrix-" +++ itoa_nat (S index))%string /\
  pi_version q = pi_version p /\ pi_kind q = pi_kind p /\ pi_type q = pi_type p /\ pi_clone q = pi_clone p /\
  pi_concurrency q = pi_concurrency p /\ pi_depends q = pi_depends p /\ pi_node q = pi_node p /\
  pi_platform q = pi_platform p /\ pi_pull_secrets q = pi_pull_secrets p /\ pi_trigger q = pi_trigger p /\
  pi_volumes q = pi_volumes p /\ pi_workspace q = pi_workspace p /\
  (forall steps, pi_steps p = map Some steps -> exists ls, Forall2 (CopiesOf environ) steps ls /\ pi_steps q = map Some (concat ls)) /\
  (forall services, pi_services p = map Some services -> exists ls, Forall2 (CopiesOf environ) services ls /\ pi_services q = map Some (concat ls)).

(** ** Substitution: a text is a list of bytes and of variables to be replaced. *)
Inductive token : Type := Ch (c : ascii) | Var (k : string).
Definition render1 (t : token) : string := match t with Ch c => String c "" | Var k => ("${" +++ k +++ "}")%string end.
Definition render (l : list token) : string := concats (map render1 l).
Definition chars (s : string) : list token := map Ch (list_ascii_of_string s).
(** The bytes of the text do not form a variable, even when variables between them vanish. *)
Fixpoint nextByte (l : list token) : option ascii :=
  match l with [] => None | Ch c :: _ => Some c | Var _ :: l' => nextByte l' end.
Fixpoint Plain (l : list token) : Prop :=
  match l with
  | [] => True
  | Ch c :: l' => (c = "$"%char -> nextByte l' <> Some "{"%char) /\ Plain l'
  | Var k :: l' => (hasChar "$" k = false /\ hasChar "{" k = false /\ hasChar "}" k = false) /\ Plain l'
  end.
(** All variables at once. *)
Definition replaceVar (env : smap string) (t : token) : list token :=
  match t with
  | Ch c => [Ch c]
  | Var k => match mget k env with Some v => chars v | None => [Var k] end
  end.
Definition CleanKey (k : string) : Prop := hasChar "$" k = false /\ hasChar "{" k = false /\ hasChar "}" k = false.
Definition CleanValue (v : string) : Prop := hasChar "$" v = false /\ hasChar "{" v = false.

(** ** Workspace *)
(** src/host/path, the path without the slash at either end. *)
Definition RepoPath (parseURL : string -> option (string * string)) (remote s : string) : Prop :=
  match parseURL remote with
  | None => s = "src"
  | Some (host, path) =>
      (host = "" -> s = "src") /\
      (host <> "" -> exists core, s = ("src/" +++ host +++ "/" +++ core)%string /\
         exists pre post, path = (pre +++ core +++ post)%string /\ (pre = "" \/ pre = "/") /\ (post = "" \/ post = "/") /\
           (pre = "" -> forall r, path <> ("/" +++ r)%string) /\ (post = "" -> forall r, core <> (r +++ "/")%string))
  end.
(** The second path, from the first, without detours. *)
Definition Joined (b p full : string) : Prop :=
  exists lb lp, NameSpec.Components b lb /\ NameSpec.Components p lp /\
    full = NameSpec.written (NameSpec.rooted b) (NameSpec.walk (NameSpec.rooted b) (lb ++ lp)).
Definition given (path : string) : Prop := path <> "" /\ path <> ".".
Definition RightWorkspace (parseURL : string -> option (string * string)) (k8s : bool) (base path remote : string) (w : Workspace) : Prop :=
  (k8s = false ->
     (base <> "" -> ws_base w = base) /\
     (base = "" -> remote = "" -> ws_base w = "") /\ (base = "" -> remote <> "" -> ws_base w = "/drone") /\
     (given path -> ws_path w = path) /\
     (~ given path -> remote = "" -> ws_path w = "") /\ (~ given path -> remote <> "" -> RepoPath parseURL remote (ws_path w))) /\
  (k8s = true -> ws_base w = "" /\
     exists b p, Joined b p (ws_path w) /\
       (base <> "" -> b = base) /\ (base = "" -> b = "/drone") /\
       (path <> "" -> p = path) /\ (path = "" -> RepoPath parseURL remote p)).

(** ** The whole pipeline *)
(** What the steps come from: the clone section or the default clone step, then the pipeline. *)
Definition StepsOf (getenv : string -> string) (g : LConfig) (steps : list Container) : Prop :=
  (lg_clone g <> [] \/ getenv "DRONE_CONVERT_YAML_LEGACY_CLONE" <> "true" ->
     Forall2 RightContainer (lg_clone g ++ lg_pipeline g) steps /\
     RightNames (map lc_name (lg_clone g ++ lg_pipeline g)) (map ct_name steps)) /\
  (lg_clone g = [] -> getenv "DRONE_CONVERT_YAML_LEGACY_CLONE" = "true" ->
     exists c rest, steps = c :: rest /\ DefaultClone c /\ Forall2 RightContainer (lg_pipeline g) rest /\
     RightNames ("clone" :: map lc_name (lg_pipeline g)) (map ct_name steps)).
Definition RightPipeline (getenv : string -> string) (g : LConfig) (p : Pipeline) : Prop :=
  pi_kind p = "pipeline" /\ pi_name p = "default" /\ pi_version p = "" /\
  (getenv "DRONE_CONVERT_YAML_LEGACY_TO_KUBERNETES" = "true" -> pi_type p = "kubernetes") /\
  (getenv "DRONE_CONVERT_YAML_LEGACY_TO_KUBERNETES" <> "true" -> pi_type p = "") /\
  (cl_disable (pi_clone p) = true <-> lg_clone g <> [] \/ getenv "DRONE_CONVERT_YAML_LEGACY_CLONE" = "true") /\
  cl_depth (pi_clone p) = 0%Z /\ cl_skip_verify (pi_clone p) = false /\
  pi_concurrency p = 0%Z /\ pi_depends p = [] /\ pi_node p = [] /\ pi_platform p = noPlatform /\
  (getenv "DRONE_CONVERT_YAML_DEFAULT_PULL_SECRETS" = "true" -> pi_pull_secrets p = [".dockerconfigjson"]) /\
  (getenv "DRONE_CONVERT_YAML_DEFAULT_PULL_SECRETS" <> "true" -> pi_pull_secrets p = []) /\
  RightVolumes g (pi_volumes p) /\
  exists steps services, pi_steps p = map Some steps /\ pi_services p = map Some services /\
    StepsOf getenv g steps /\ Forall2 RightContainer (lg_services g) services /\
    map ct_name services = map lc_name (lg_services g) /\ RightTrigger (lg_branches g) steps (pi_trigger p).

(** What is put in the text for a value: a value of several lines is quoted. *)
Definition shown (isPrintHigh : N -> bool) (v : string) : string := if hasChar NL v then quote isPrintHigh v else v.
Definition shownEnv (isPrintHigh : N -> bool) (env : smap string) : smap string :=
  map (fun kv => (fst kv, shown isPrintHigh (snd kv))) env.
