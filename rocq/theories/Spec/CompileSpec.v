(** * CompileSpec.v: what a compiled pipeline must look like. *)
From Coq Require Import Sorting.Permutation.
From Verif Require Import Model.Go Model.Types Model.Cond Model.Engine Model.Image Model.Path
  Model.Script Model.Encode Model.Compiler Spec.LintSpec Spec.CondSpec Spec.ScriptSpec.

(** ** Inputs *)
(** Everything the compiler takes from its surroundings. *)
Record World : Type := {
  w_rnd : nat -> string; w_glob : string -> string -> option bool; w_available : string -> bool;
  w_isPrintHigh : N -> bool; w_formatFloat : float64 -> string; w_toJSON : value -> string;
  w_ord : nat -> smap string -> smap string }.
Definition compileIn (w : World) : Compiler -> Pipeline -> M Spec :=
  Compile (w_rnd w) (w_glob w) (w_available w) (w_isPrintHigh w) (w_formatFloat w) (w_toJSON w) (w_ord w).
(** [Compile] returns [spec] when [n] random names were drawn before. *)
Definition Compiled (w : World) (c : Compiler) (p : Pipeline) (n : nat) (spec : Spec) : Prop :=
  exists n', compileIn w c p n = Ok (spec, n').
(** Maps are visited in some order. *)
Definition OrderOk (w : World) : Prop := forall i m, Permutation m (w_ord w i m).

(** The configurations the package provides: no transform, the workspace is an empty dir or
    also a host path, each step mounts the one or the other. *)
Definition Standard (w : World) (c : Compiler) (hostDir : option string) (hostMount : bool) : Prop :=
  co_transform c = None /\
  co_workspace c = match hostDir with Some d => Some (CreateHostWorkspace (w_rnd w) d) | None => None end /\
  co_mount c = if hostMount then Some (fun s b q f => mret (MountHostWorkspace s b q f)) else None.
Definition Default (c : Compiler) : Prop := co_transform c = None /\ co_workspace c = None /\ co_mount c = None.

(** The container has no null port and no null volume. *)
Definition NoNullPart (src : Container) : Prop := ~ In None (ct_ports src) /\ ~ In None (ct_volumes src).
(** Ports and volumes of a build step are not looked at. *)
Definition NoNullStep (src : Container) : Prop := ct_build src = None -> NoNullPart src.
Definition Complete (p : Pipeline) (steps services : list Container) (vols : list Volume) : Prop :=
  pi_steps p = map Some steps /\ pi_services p = map Some services /\ pi_volumes p = map Some vols /\
  Forall NoNullStep steps /\ Forall NoNullPart services.

(** ** Where a compiled step comes from. *)
Definition present {A} (l : list (option A)) : list A :=
  flat_map (fun o => match o with Some a => [a] | None => [] end) l.
Inductive Origin : Type :=
| FromClone
| FromService (c : Container)
| FromStep (c : Container).
Definition origins (p : Pipeline) : list Origin :=
  (if cl_disable (pi_clone p) then [] else [FromClone]) ++
  map FromService (present (pi_services p)) ++ map FromStep (present (pi_steps p)).
Definition stepName (s : Step) : string := md_name (st_meta s).

(** C27 *)
Definition RightName (o : Origin) (s : Step) : Prop :=
  match o with
  | FromClone => stepName s = "clone" /\ st_detach s = false
  | FromService c => stepName s = ct_name c /\ st_detach s = true
  | FromStep c => stepName s = ct_name c /\ st_detach s = ct_detach c
  end /\ md_labels (st_meta s) = Some [("io.drone.step.name", stepName s)].

(** C28 *)
Definition Parallel (p : Pipeline) : Prop := exists c, In c (present (pi_steps p)) /\ ct_depends c <> [].
Definition declared (o : Origin) : list string :=
  match o with FromClone => [] | FromService c | FromStep c => ct_depends c end.
Definition RightDepends (p : Pipeline) (o : Origin) (s : Step) : Prop :=
  (Parallel p /\ cl_disable (pi_clone p) = false ->
     match o with
     | FromClone => st_depends s = []
     | FromService c => st_depends s = ct_depends c ++ ["clone"]
     | FromStep c => (ct_depends c = [] -> st_depends s = ["clone"]) /\ (ct_depends c <> [] -> st_depends s = ct_depends c)
     end) /\
  (~ Parallel p \/ cl_disable (pi_clone p) = true -> st_depends s = declared o).

(** C29 *)
Definition StepDependsOn (l : list Step) (a b : string) : Prop :=
  exists s, In s l /\ stepName s = a /\ In b (st_depends s).
Definition Executable (l : list Step) : Prop :=
  (forall before s after d, l = before ++ s :: after -> In d (st_depends s) -> In d (map stepName before)) /\
  NoDup (map stepName l) /\ Acyclic (StepDependsOn l).

(** C30 *)
Definition RightPrivileged (c : Compiler) (o : Origin) (s : Step) : Prop :=
  ds_privileged (st_docker s) = true <->
  match o with
  | FromClone => False
  | FromService src => ct_privileged src = true \/ exists f, co_privileged c = Some f /\ f src = true
  | FromStep src => (ct_privileged src = true /\ ct_build src = None) \/ exists f, co_privileged c = Some f /\ f src = true
  end.

(** C31 *)
Definition MountsSocket (s : Step) : Prop := exists m, In m (st_volumes s) /\ mo_name m = "_docker_socket".
Definition IsBuild (o : Origin) : Prop := exists src b, o = FromStep src /\ ct_build src = Some b.
Definition HasBuild (p : Pipeline) : Prop := exists src b, In src (present (pi_steps p)) /\ ct_build src = Some b.
Inductive VolumeOrigin : Type :=
| VWorkspace
| VHostWorkspace (dir : string)
| VDeclared (v : Volume)
| VSocket.
Definition RightVolume (ns : string) (o : VolumeOrigin) (v : EVolume) : Prop :=
  match o with
  | VWorkspace => md_name (ev_meta v) = "workspace" /\ ev_empty v = Some {| ed_medium := ""; ed_size := 0 |} /\ ev_host v = None
  | VHostWorkspace d => md_name (ev_meta v) = "host" /\ ev_empty v = None /\ ev_host v = Some d
  | VDeclared d =>
      md_name (ev_meta v) = vo_name d /\
      match vo_empty d, vo_host d with
      | Some e, _ => ev_empty v = Some {| ed_medium := ve_medium e; ed_size := ve_size e |} /\ ev_host v = None
      | None, Some h => ev_empty v = None /\ ev_host v = Some (vh_path h)
      | None, None => ev_empty v = None /\ ev_host v = None
      end
  | VSocket => md_name (ev_meta v) = "_docker_socket" /\ ev_empty v = None /\ ev_host v = Some "/var/run/docker.sock"
  end /\
  match o with
  | VHostWorkspace _ => md_namespace (ev_meta v) = "" /\ md_labels (ev_meta v) = None
  | _ => md_namespace (ev_meta v) = ns /\ md_labels (ev_meta v) = Some []
  end.
Definition RightVolumes (p : Pipeline) (hostDir : option string) (ns : string) (vols : list EVolume) : Prop :=
  exists sock, (HasBuild p -> sock = [VSocket]) /\ (~ HasBuild p -> sock = []) /\
  Forall2 (RightVolume ns)
    (VWorkspace :: match hostDir with Some d => [VHostWorkspace d] | None => [] end ++
     map VDeclared (present (pi_volumes p)) ++ sock) vols.

(** C32 *)
Definition NoHostAccess (s : Step) : Prop :=
  ds_dns (st_docker s) = [] /\ ds_dns_search (st_docker s) = [] /\ ds_extra_hosts (st_docker s) = [] /\
  ds_network (st_docker s) = "" /\ st_devices s = [] /\
  Forall (fun q => ep_host q = 0%Z) (ds_ports (st_docker s)).

(** C33 *)
Definition workspaceVars (base dir full : string) : list (string * string) :=
  [("DRONE_WORKSPACE_BASE", base); ("CI_WORKSPACE_BASE", base);
   ("DRONE_WORKSPACE_PATH", dir); ("CI_WORKSPACE_PATH", dir);
   ("DRONE_WORKSPACE", full); ("CI_WORKSPACE", full)].
Definition envOf (s : Step) (k : string) : option string :=
  match st_envs s with Some e => mget k e | None => None end.
Definition HasWorkspace (base dir full : string) (s : Step) : Prop :=
  Forall (fun '(k, v) => envOf s k = Some v) (workspaceVars base dir full).

(** C34 *)
Definition Skipped (c : Compiler) (src : Container) : Prop := exists f, co_skip c = Some f /\ f src = true.
Definition RightPolicy (w : World) (c : Compiler) (o : Origin) (s : Step) : Prop :=
  match o with
  | FromClone => st_policy s = RunOnSuccess
  | FromService src | FromStep src =>
      let status := w_status (ct_when src) in
      (runsOnSuccess (st_policy s) = true <-> ~ Skipped c src /\ Accepts (w_glob w) status "success") /\
      (runsOnFailure (st_policy s) = true <->
         ~ Skipped c src /\ c_include status <> [] /\ Accepts (w_glob w) status "failure")
  end.

(** C35 *)
Definition Windows (p : Pipeline) : Prop := pl_os (pi_platform p) = "windows".
(** [k] has plain value [v] in a list of map entries. *)
Definition PlainVar (src : Container) (k v : string) : Prop :=
  exists x, In (k, Some x) (ct_environment src) /\ v_secret x = "" /\ v_value x = v.
Definition PlainSetting (w : World) (src : Container) (k v : string) : Prop :=
  exists name x, In (name, Some x) (ct_settings src) /\ p_secret x = "" /\
    k = ("PLUGIN_" +++ toUpper name)%string /\ v = encode (w_formatFloat w) (w_toJSON w) (p_value x).
Definition ScriptVar (w : World) (p : Pipeline) (src : Container) (k v : string) : Prop :=
  Windows p /\ ct_commands src <> [] /\
  ((k = "SHELL" /\ v = "powershell.exe") \/
   (k = "CI_SCRIPT" /\ v = Quote.base64 (scriptText winHead (winLines (escaped (w_isPrintHigh w))) (ct_commands src)))).
Definition WorkspaceVar (p : Pipeline) (k v : string) : Prop :=
  let '(base, dir, full) := createWorkspace p in In (k, v) (workspaceVars base dir full).
(** The first source that knows the variable wins. *)
Definition RightEnv (w : World) (p : Pipeline) (src : Container) (s : Step) : Prop :=
  forall k v, envOf s k = Some v <->
    WorkspaceVar p k v \/
    ((forall x, ~ WorkspaceVar p k x) /\
     (ScriptVar w p src k v \/
      ((forall x, ~ ScriptVar w p src k x) /\
       (PlainSetting w src k v \/
        ((forall x, ~ PlainSetting w src k x) /\ PlainVar src k v))))).
Definition RightSecrets (src : Container) (s : Step) : Prop :=
  forall name k, In {| sv_name := name; sv_env := k |} (st_secrets s) <->
    (name <> "" /\ exists x, In (k, Some x) (ct_environment src) /\ v_secret x = name) \/
    (name <> "" /\ exists key x, In (key, Some x) (ct_settings src) /\ p_secret x = name /\ k = ("PLUGIN_" +++ toUpper key)%string).
(** Go maps have distinct keys; two settings whose names differ only in case collide. *)
Definition MapsOk (src : Container) : Prop := NoDup (mkeys (ct_environment src)) /\ NoDup (mkeys (ct_settings src)).
Definition NoCollision (src : Container) : Prop := NoDup (map toUpper (mkeys (ct_settings src))).
Definition buildVars (w : World) (b : Build) (uid : string) (k v : string) : Prop :=
  (k = "DOCKER_BUILD_CACHE_FROM" /\ b_cache_from b <> [] /\ v = join "," (b_cache_from b)) \/
  (k = "DOCKER_BUILD_DOCKERFILE" /\ b_dockerfile b <> "" /\ v = b_dockerfile b) \/
  (k = "DOCKER_BUILD_CONTEXT" /\ b_context b <> "" /\ v = b_context b) \/
  (k = "DOCKER_BUILD_IMAGE" /\ b_image b <> "" /\ v = Expand (w_available w) (b_image b)) \/
  (k = "DOCKER_BUILD_IMAGE_ALIAS" /\ b_image b <> "" /\
     v = Expand (w_available w) (Trim (w_available w) (b_image b) +++ ":" +++ uid)%string).
Definition RightBuildEnv (w : World) (p : Pipeline) (b : Build) (s : Step) : Prop :=
  (forall k v, envOf s k = Some v <-> WorkspaceVar p k v \/ buildVars w b (md_uid (st_meta s)) k v) /\
  st_secrets s = [].
Definition RightCloneEnv (p : Pipeline) (s : Step) : Prop :=
  (forall k v, envOf s k = Some v <->
    WorkspaceVar p k v \/
    (k = "PLUGIN_DEPTH" /\ (0 < cl_depth (pi_clone p))%Z /\ v = itoa (cl_depth (pi_clone p))) \/
    (cl_skip_verify (pi_clone p) = true /\ v = "true" /\ (k = "GIT_SSL_NO_VERIFY" \/ k = "PLUGIN_SKIP_VERIFY"))) /\
  st_secrets s = [].

(** C36 *)
Definition RightWorkingDir (p : Pipeline) (o : Origin) (s : Step) : Prop :=
  let full := snd (createWorkspace p) in
  match o with
  | FromClone => st_working_dir s = full
  | FromStep src =>
      match ct_build src with
      | Some _ => st_working_dir s = if ct_detach src then match ct_commands src with [] => "" | _ => full end else full
      | None => st_working_dir s =
          if ct_detach src then match ct_commands src with [] => ct_working_dir src | _ => full end else full
      end
  | FromService src =>
      st_working_dir s =
        match ct_commands src with [] => if ct_detach src then ct_working_dir src else "" | _ => full end
  end.

(** C37 *)
Definition scriptPath : string := "/usr/drone/bin/init".
Definition RightScript (w : World) (p : Pipeline) (o : Origin) (s : Step) (files : list File) : Prop :=
  match o with
  | FromClone => ds_command (st_docker s) = [] /\ ds_args (st_docker s) = []
  | FromService src | FromStep src =>
      match o, ct_build src with
      | FromStep _, Some _ => ds_command (st_docker s) = [] /\ ds_args (st_docker s) = ["--build"] /\ st_files s = []
      | _, _ =>
        (ct_commands src = [] ->
           ds_command (st_docker s) = ct_entrypoint src /\ ds_args (st_docker s) = ct_command src /\ st_files s = []) /\
        (ct_commands src <> [] -> ~ Windows p ->
           ds_command (st_docker s) = ["/bin/sh"] /\ ds_args (st_docker s) = [scriptPath] /\
           st_files s = [{| fm_name := ct_name src; fm_path := scriptPath; fm_mode := 511 |}] /\
           exists f, In f files /\ md_name (fi_meta f) = ct_name src /\
             fi_data f = scriptText posixHead (posixLines (escaped (w_isPrintHigh w))) (ct_commands src)) /\
        (ct_commands src <> [] -> Windows p ->
           ds_command (st_docker s) = ["powershell"; "-noprofile"; "-noninteractive"; "-command"] /\
           ds_args (st_docker s) = ["[System.Text.Encoding]::UTF8.GetString([System.Convert]::FromBase64String($Env:CI_SCRIPT)) | iex"] /\
           st_files s = [])
      end
  end.

(** C38 *)
Definition fileNamed (name : string) (f : File) : Prop := md_name (fi_meta f) = name.

(** C39 *)
(** The image a container asks for. *)
Definition asked (w : World) (p : Pipeline) (o : Origin) : string :=
  match o with
  | FromClone => Expand (w_available w) (cloneImage p)
  | FromService src => Expand (w_available w) (ct_image src)
  | FromStep src => match ct_build src with Some _ => "drone/docker" | None => Expand (w_available w) (ct_image src) end
  end.
(** The images built by the pipeline, in order. *)
Definition builds (l : list Origin) : list string :=
  flat_map (fun o => match o with
    | FromStep src => match ct_build src with Some b => [b_image b] | None => [] end
    | _ => [] end) l.

(** C40 *)
Definition uidsOf (spec : Spec) : list string :=
  md_uid (sp_meta spec) ::
  match sp_docker spec with Some d => map (fun v => md_uid (ev_meta v)) (dc_volumes d) | None => [] end ++
  map (fun s => md_uid (st_meta s)) (sp_steps spec) ++ map (fun f => md_uid (fi_meta f)) (sp_files spec).

(** Fields that are carried over unchanged. *)
Definition portOf (q : Port) : EPort := {| ep_port := po_port q; ep_host := po_host q; ep_protocol := po_protocol q |}.
Definition SamePull (pull : string) (s : Step) : Prop :=
  let p := toLower pull in
  (p = "always" -> ds_pull (st_docker s) = PullAlways) /\
  (p = "if-not-exists" -> ds_pull (st_docker s) = PullIfNotExists) /\
  (p = "never" -> ds_pull (st_docker s) = PullNever) /\
  (~ In p ["always"; "if-not-exists"; "never"] -> ds_pull (st_docker s) = PullDefault).
Definition Carried (src : Container) (s : Step) : Prop :=
  ds_dns (st_docker s) = ct_dns src /\ ds_dns_search (st_docker s) = ct_dns_search src /\
  ds_extra_hosts (st_docker s) = ct_extra_hosts src /\ ds_network (st_docker s) = ct_network src /\
  ds_networks (st_docker s) = [] /\
  ds_ports (st_docker s) = map portOf (present (ct_ports src)) /\ ds_user (st_docker s) = ct_user src /\
  SamePull (ct_pull src) s /\ st_ignore_err s = equalFold (ct_failure src) "ignore" /\
  st_resources s = toResources src /\ st_devices s = [] /\ st_ignore_stdout s = false /\ st_ignore_stderr s = false.
Definition CarriedBuild (src : Container) (s : Step) : Prop :=
  ds_dns (st_docker s) = ct_dns src /\ ds_dns_search (st_docker s) = [] /\ ds_extra_hosts (st_docker s) = [] /\
  ds_network (st_docker s) = "" /\ ds_networks (st_docker s) = [] /\ ds_ports (st_docker s) = [] /\
  ds_user (st_docker s) = "" /\ ds_pull (st_docker s) = PullIfNotExists /\
  st_ignore_err s = equalFold (ct_failure src) "ignore" /\ st_resources s = toResources src /\ st_devices s = [] /\
  st_ignore_stdout s = false /\ st_ignore_stderr s = false.
Definition CarriedClone (s : Step) : Prop :=
  ds_dns (st_docker s) = [] /\ ds_dns_search (st_docker s) = [] /\ ds_extra_hosts (st_docker s) = [] /\
  ds_network (st_docker s) = "" /\ ds_networks (st_docker s) = [] /\ ds_ports (st_docker s) = [] /\
  ds_user (st_docker s) = "" /\ ds_pull (st_docker s) = PullIfNotExists /\ st_ignore_err s = false /\
  st_resources s = None /\ st_devices s = [] /\ st_ignore_stdout s = false /\ st_ignore_stderr s = false.
Definition RightFields (o : Origin) (s : Step) : Prop :=
  match o with
  | FromClone => CarriedClone s
  | FromService src => Carried src s
  | FromStep src => match ct_build src with Some _ => CarriedBuild src s | None => Carried src s end
  end.
(** The mounts of a step: its own, then the workspace. *)
Definition declaredMounts (o : Origin) : list Mount :=
  match o with
  | FromClone => []
  | FromService src | FromStep src =>
      match o, ct_build src with
      | FromStep _, Some _ => [{| mo_name := "_docker_socket"; mo_path := "/var/run/docker.sock" |}]
      | _, _ => flat_map (fun v => if String.eqb (vm_name v) "_docker_socket" then []
                                   else [{| mo_name := vm_name v; mo_path := vm_path v |}]) (present (ct_volumes src))
      end
  end.
Definition RightMounts (p : Pipeline) (hostMount : bool) (o : Origin) (s : Step) : Prop :=
  let '(base, dir, full) := createWorkspace p in
  st_volumes s = declaredMounts o ++
    if hostMount
    then {| mo_name := "host"; mo_path := full |} ::
         match dir with "" => [] | _ => [{| mo_name := "workspace"; mo_path := base |}] end
    else [{| mo_name := "workspace"; mo_path := base |}].
(** What the spec says about the pipeline as a whole. *)
Definition RightHeader (p : Pipeline) (spec : Spec) : Prop :=
  let ns := md_uid (sp_meta spec) in
  sp_meta spec = {| md_uid := ns; md_namespace := ns; md_name := ns;
                    md_labels := Some [("io.drone.pipeline.name", pi_name p);
                                       ("io.drone.pipeline.kind", pi_kind p);
                                       ("io.drone.pipeline.type", pi_type p)] |} /\
  sp_platform spec = pi_platform p /\ sp_secrets spec = [] /\
  exists d, sp_docker spec = Some d /\ dc_auths d = [].

(** C76, C77: the files of the spec in order, with names and contents. *)
Definition credentials (c : Compiler) : string := match co_git c with Some d => d | None => "" end.
Definition scriptFile (w : World) (p : Pipeline) (src : Container) : list (string * string) :=
  match ct_commands src with
  | [] => []
  | cmds => if String.eqb (pl_os (pi_platform p)) "windows" then []
            else [(ct_name src, scriptText posixHead (posixLines (escaped (w_isPrintHigh w))) cmds)]
  end.
Definition wantedFiles (w : World) (c : Compiler) (p : Pipeline) : list (string * string) :=
  flat_map (fun o => match o with
    | FromClone => match credentials c with "" => [] | d => [(".git-credentials", d)] end
    | FromService src => scriptFile w p src
    | FromStep src => match ct_build src with Some _ => [] | None => scriptFile w p src end
    end) (origins p).
Definition RightCloneFiles (c : Compiler) (o : Origin) (s : Step) : Prop :=
  o = FromClone ->
  (credentials c = "" -> st_files s = []) /\
  (credentials c <> "" -> st_files s = [{| fm_name := ".git-credentials"; fm_path := "/root/.git-credentials"; fm_mode := 0 |}]).
Definition CloneImage (p : Pipeline) (img : string) : Prop :=
  let os := pl_os (pi_platform p) in let arch := pl_arch (pi_platform p) in let version := pl_version (pi_platform p) in
  let versions := ["1903"; "1809"; "1803"; "1709"] in
  (os = "linux" -> In arch ["arm"; "arm64"] -> img = ("drone/git:linux-" +++ arch)%string) /\
  (os = "windows" -> In version versions -> img = ("drone/git:windows-" +++ version +++ "-amd64")%string) /\
  (os = "windows" -> ~ In version versions -> img = "drone/git:windows-1809-amd64") /\
  (os <> "windows" -> ~ (os = "linux" /\ In arch ["arm"; "arm64"]) -> img = "drone/git").

(** C81: names of volumes. *)
Definition volumeNames (spec : Spec) : list string :=
  match sp_docker spec with Some d => map (fun v => md_name (ev_meta v)) (dc_volumes d) | None => [] end.
Definition declaredNames (p : Pipeline) : list string := map vo_name (present (pi_volumes p)).
(** Every mount of a container that is not a build step names a declared volume. *)
Definition MountsDeclared (p : Pipeline) : Prop :=
  forall src m, In src (present (pi_services p)) \/ (In src (present (pi_steps p)) /\ ct_build src = None) ->
    In m (present (ct_volumes src)) -> In (vm_name m) (declaredNames p).
