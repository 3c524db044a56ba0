(** * Compiler.v: the compiler (yaml/compiler/compiler.go, step.go, clone.go, workspace.go,
    convert.go, script_posix.go, script_win.go). *)
From Verif Require Import Model.Go Model.Types Model.Cond Model.Engine Model.Image Model.Quote
  Model.Script Model.Path Model.Encode.

(** yaml/compiler/convert.go 24-26. *)
Definition toIgnoreErr (from : Container) : bool := equalFold (ct_failure from) "ignore".
(** yaml/compiler/convert.go 36-42. *)
Definition toPort (from : option Port) : outcome EPort :=
  p <- deref from ;;
  Ok {| ep_port := po_port p; ep_host := po_host p; ep_protocol := po_protocol p |}.
(** yaml/compiler/convert.go 28-34. *)
Definition toPorts (from : Container) : outcome (list EPort) := otraverse toPort (ct_ports from).
(** yaml/compiler/convert.go 44-55. *)
Definition toPullPolicy (from : Container) : PullPolicy :=
  let p := toLower (ct_pull from) in
  if String.eqb p "always" then PullAlways
  else if String.eqb p "if-not-exists" then PullIfNotExists
  else if String.eqb p "never" then PullNever
  else PullDefault.

(** yaml/compiler/clone.go 26. *)
Definition cloneStepName : string := "clone".
(** yaml/compiler/clone.go 30-49. *)
Definition cloneImage (src : Pipeline) : string :=
  let p := pi_platform src in
  let os := pl_os p in
  if String.eqb os "linux" && String.eqb (pl_arch p) "arm" then "drone/git:linux-arm"
  else if String.eqb os "linux" && String.eqb (pl_arch p) "arm64" then "drone/git:linux-arm64"
  else if String.eqb os "windows" && String.eqb (pl_version p) "1903" then "drone/git:windows-1903-amd64"
  else if String.eqb os "windows" && String.eqb (pl_version p) "1809" then "drone/git:windows-1809-amd64"
  else if String.eqb os "windows" && String.eqb (pl_version p) "1803" then "drone/git:windows-1803-amd64"
  else if String.eqb os "windows" && String.eqb (pl_version p) "1709" then "drone/git:windows-1709-amd64"
  else if String.eqb os "windows" then "drone/git:windows-1809-amd64"
  else "drone/git".
(** yaml/compiler/clone.go 92-97. *)
Definition createClone (src : Pipeline) : Container :=
  {| ct_build := None; ct_command := []; ct_commands := []; ct_detach := false;
     ct_depends := []; ct_devices := []; ct_dns := []; ct_dns_search := [];
     ct_entrypoint := []; ct_environment := []; ct_extra_hosts := []; ct_failure := "";
     ct_image := cloneImage src; ct_network := ""; ct_name := cloneStepName; ct_ports := []; ct_privileged := false;
     ct_pull := ""; ct_push := None; ct_resources := None; ct_settings := []; ct_shell := "";
     ct_user := ""; ct_volumes := []; ct_when := noConds; ct_working_dir := "" |}.
(** yaml/compiler/clone.go 55-63. *)
Definition setupCloneDepth (src : Pipeline) (dst : Step) : outcome Step :=
  dst <- (if Z.ltb 0 (cl_depth (pi_clone src)) then setEnv "PLUGIN_DEPTH" (itoa (cl_depth (pi_clone src))) dst else Ok dst) ;;
  if cl_skip_verify (pi_clone src)
  then dst <- setEnv "GIT_SSL_NO_VERIFY" "true" dst ;; setEnv "PLUGIN_SKIP_VERIFY" "true" dst
  else Ok dst.

(** yaml/compiler/workspace.go 28-29. *)
Definition workspaceName : string := "workspace".
Definition workspaceHostName : string := "host".
(** yaml/compiler/workspace.go 32-46. *)
Definition setupWorkingDir (src : Container) (dst : Step) (path : string) : Step :=
  if negb (isEmpty (st_working_dir dst)) then dst
  else if st_detach dst && Nat.eqb (length (ct_commands src)) 0 then dst
  else set_working_dir path dst.
(** yaml/compiler/workspace.go 50-57. *)
Definition setupWorkspaceEnv (step : Step) (base path full : string) : outcome Step :=
  step <- setEnv "DRONE_WORKSPACE_BASE" base step ;;
  step <- setEnv "DRONE_WORKSPACE_PATH" path step ;;
  step <- setEnv "DRONE_WORKSPACE" full step ;;
  step <- setEnv "CI_WORKSPACE_BASE" base step ;;
  step <- setEnv "CI_WORKSPACE_PATH" path step ;;
  setEnv "CI_WORKSPACE" full step.
(** yaml/compiler/workspace.go 138-143. *)
Definition MountWorkspace (step : Step) (base path full : string) : Step :=
  set_mounts (st_volumes step ++ [{| mo_name := workspaceName; mo_path := base |}]) step.
(** yaml/compiler/workspace.go 147-158. *)
Definition MountHostWorkspace (step : Step) (base path full : string) : Step :=
  let step := set_mounts (st_volumes step ++ [{| mo_name := workspaceHostName; mo_path := full |}]) step in
  if negb (isEmpty path)
  then set_mounts (st_volumes step ++ [{| mo_name := workspaceName; mo_path := base |}]) step
  else step.

(** yaml/compiler/compiler.go 27-66. The callbacks on containers and the credentials callback
    are taken to be functions without side effects; the three callbacks on the output may
    change it at will and draw random names. NetrcFunc is never called. *)
Record Compiler : Type := {
  co_git : option string;
  co_privileged : option (Container -> bool);
  co_skip : option (Container -> bool);
  co_transform : option (Spec -> M Spec);
  co_workspace : option (Spec -> M Spec);
  co_mount : option (Step -> string -> string -> string -> M Step) }.

(** yaml/compiler/compiler.go 266-271. *)
Definition gitCredentials (c : Compiler) : string :=
  match co_git c with Some data => data | None => "" end.
(** yaml/compiler/compiler.go 285-290. *)
Definition isPrivileged (c : Compiler) (container : Container) : bool :=
  match co_privileged c with Some f => f container | None => false end.
(** yaml/compiler/compiler.go 295-300. *)
Definition isSkipped (c : Compiler) (container : Container) : bool :=
  match co_skip c with Some f => f container | None => false end.

Section Compile.
  (** The random source (internal/rand), the glob matcher, the digest algorithms linked into
      the binary, unicode.IsPrint above ASCII, float formatting and the yaml-to-JSON conversion. *)
  Variable rnd : nat -> string.
  Variable glob : string -> string -> option bool.
  Variable available : string -> bool.
  Variable isPrintHigh : N -> bool.
  Variable formatFloat : float64 -> string.
  Variable toJSON : value -> string.
  (** The order in which the map of built images is visited for the i-th step. *)
  Variable ord : nat -> smap string -> smap string.

  (** yaml/compiler/workspace.go 97-109. *)
  Definition CreateWorkspace (spec : Spec) : M Spec :=
    uid <~ fresh rnd ;;
    mlift (addVolume
      {| ev_meta := {| md_uid := uid; md_namespace := md_namespace (sp_meta spec);
                       md_name := workspaceName; md_labels := Some [] |};
         ev_empty := Some {| ed_medium := ""; ed_size := 0 |}; ev_host := None |} spec).
  (** yaml/compiler/workspace.go 114-130. *)
  Definition CreateHostWorkspace (workdir : string) (spec : Spec) : M Spec :=
    spec <~ CreateWorkspace spec ;;
    uid <~ fresh rnd ;;
    mlift (addVolume
      {| ev_meta := {| md_uid := uid; md_namespace := ""; md_name := workspaceHostName; md_labels := None |};
         ev_empty := None; ev_host := Some workdir |} spec).

  (** yaml/compiler/compiler.go 302-309. *)
  Definition setupWorkspace (c : Compiler) (spec : Spec) : M Spec :=
    match co_workspace c with Some f => f spec | None => CreateWorkspace spec end.
  (** yaml/compiler/compiler.go 311-317. *)
  Definition setupWorkspaceMount (c : Compiler) (step : Step) (base path full : string) : M Step :=
    match co_mount c with
    | Some f => f step base path full
    | None => mret (MountWorkspace step base path full)
    end.

  (** yaml/compiler/clone.go 69-87. *)
  Definition setupCloneCredentials (spec : Spec) (dst : Step) (data : string) : M (Spec * Step) :=
    if isEmpty data then mret (spec, dst)
    else
      let dst := set_files (st_files dst ++ [{| fm_name := ".git-credentials"; fm_path := "/root/.git-credentials"; fm_mode := 0 |}]) dst in
      uid <~ fresh rnd ;;
      mret (sp_set_files (sp_files spec ++
              [{| fi_meta := {| md_uid := uid; md_namespace := md_namespace (sp_meta spec);
                                md_name := ".git-credentials"; md_labels := None |};
                  fi_data := data |}]) spec, dst).

  (** yaml/compiler/script_posix.go 27-58. *)
  Definition setupScript (spec : Spec) (dst : Step) (src : Container) : M (Spec * Step) :=
    uid <~ fresh rnd ;;
    let spec := sp_set_files (sp_files spec ++
                  [{| fi_meta := {| md_uid := uid; md_namespace := md_namespace (sp_meta spec);
                                    md_name := ct_name src; md_labels := None |};
                      fi_data := script isPrintHigh (ct_commands src) |}]) spec in
    let dst := set_files (st_files dst ++
                 [{| fm_name := ct_name src; fm_path := "/usr/drone/bin/init"; fm_mode := 511 |}]) dst in
    mret (spec, set_docker (set_run ["/bin/sh"] ["/usr/drone/bin/init"] (st_docker dst)) dst).
  (** yaml/compiler/script_win.go 27-46. *)
  Definition setupScriptWin (spec : Spec) (dst : Step) (src : Container) : M (Spec * Step) :=
    let dst := set_docker (set_run ["powershell"; "-noprofile"; "-noninteractive"; "-command"]
      ["[System.Text.Encoding]::UTF8.GetString([System.Convert]::FromBase64String($Env:CI_SCRIPT)) | iex"]
      (st_docker dst)) dst in
    dst <~ mlift (setEnv "CI_SCRIPT" (base64 (scriptWin isPrintHigh (ct_commands src))) dst) ;;
    dst <~ mlift (setEnv "SHELL" "powershell.exe" dst) ;;
    mret (spec, dst).

  (** yaml/compiler/step.go 73-86. *)
  Fixpoint addMounts (vols : list (option VolumeMount)) (dst : Step) : outcome Step :=
    match vols with
    | [] => Ok dst
    | v :: vs =>
        vol <- deref v ;;
        if String.eqb (vm_name vol) "_docker_socket" then addMounts vs dst
        else addMounts vs (set_mounts (st_volumes dst ++ [{| mo_name := vm_name vol; mo_path := vm_path vol |}]) dst)
    end.
  (** yaml/compiler/step.go 90-104. *)
  Fixpoint addEnvironment (env : smap (option Variable_)) (dst : Step) : outcome Step :=
    match env with
    | [] => Ok dst
    | (key, None) :: es => addEnvironment es dst
    | (key, Some v) :: es =>
        if negb (isEmpty (v_secret v))
        then addEnvironment es (set_secrets (st_secrets dst ++ [{| sv_name := v_secret v; sv_env := key |}]) dst)
        else dst <- setEnv key (v_value v) dst ;; addEnvironment es dst
    end.
  (** yaml/compiler/step.go 108-131. *)
  Fixpoint addSettings (env : smap (option Parameter_)) (dst : Step) : outcome Step :=
    match env with
    | [] => Ok dst
    | (key, None) :: es => addSettings es dst
    | (key, Some v) :: es =>
        let key := ("PLUGIN_" +++ toUpper key)%string in
        if negb (isEmpty (p_secret v))
        then addSettings es (set_secrets (st_secrets dst ++ [{| sv_name := p_secret v; sv_env := key |}]) dst)
        else dst <- setEnv key (encode formatFloat toJSON (p_value v)) dst ;; addSettings es dst
    end.

  (** yaml/compiler/step.go 26-147. *)
  Definition createStep (spec : Spec) (src : Container) : M (Spec * Step) :=
    uid <~ fresh rnd ;;
    ports <~ mlift (toPorts src) ;;
    let dst :=
      {| st_meta := {| md_uid := uid; md_namespace := md_namespace (sp_meta spec); md_name := ct_name src;
                       md_labels := Some [("io.drone.step.name", ct_name src)] |};
         st_detach := ct_detach src; st_depends := ct_depends src; st_devices := [];
         st_docker := {| ds_args := ct_command src; ds_command := ct_entrypoint src; ds_dns := ct_dns src;
                         ds_dns_search := ct_dns_search src; ds_extra_hosts := ct_extra_hosts src;
                         ds_image := Expand available (ct_image src); ds_network := ct_network src;
                         ds_networks := []; ds_ports := ports; ds_privileged := ct_privileged src;
                         ds_pull := toPullPolicy src; ds_user := ct_user src |};
         st_envs := Some []; st_files := []; st_ignore_err := toIgnoreErr src; st_ignore_stderr := false;
         st_ignore_stdout := false; st_resources := toResources src; st_policy := toRunPolicy glob src;
         st_secrets := []; st_volumes := []; st_working_dir := "" |} in
    let dst := if st_detach dst && Nat.eqb (length (ct_commands src)) 0
               then set_working_dir (ct_working_dir src) dst else dst in
    dst <~ mlift (addMounts (ct_volumes src) dst) ;;
    dst <~ mlift (addEnvironment (ct_environment src) dst) ;;
    dst <~ mlift (addSettings (ct_settings src) dst) ;;
    if Nat.ltb 0 (length (ct_commands src))
    then if String.eqb (pl_os (sp_platform spec)) "windows"
         then setupScriptWin spec dst src else setupScript spec dst src
    else mret (spec, dst).

  (** yaml/compiler/step.go 149-204; [b] is src.Build. *)
  Definition createBuildStep (spec : Spec) (src : Container) (b : Build) : M Step :=
    uid <~ fresh rnd ;;
    let dst :=
      {| st_meta := {| md_uid := uid; md_namespace := md_namespace (sp_meta spec); md_name := ct_name src;
                       md_labels := Some [("io.drone.step.name", ct_name src)] |};
         st_detach := ct_detach src; st_depends := ct_depends src; st_devices := [];
         st_docker := {| ds_args := ["--build"]; ds_command := []; ds_dns := ct_dns src; ds_dns_search := [];
                         ds_extra_hosts := []; ds_image := "drone/docker"; ds_network := ""; ds_networks := [];
                         ds_ports := []; ds_privileged := false; ds_pull := PullIfNotExists; ds_user := "" |};
         st_envs := Some []; st_files := []; st_ignore_err := toIgnoreErr src; st_ignore_stderr := false;
         st_ignore_stdout := false; st_resources := toResources src; st_policy := toRunPolicy glob src;
         st_secrets := []; st_volumes := []; st_working_dir := "" |} in
    dst <~ mlift (if Nat.ltb 0 (length (b_cache_from b))
                  then setEnv "DOCKER_BUILD_CACHE_FROM" (join "," (b_cache_from b)) dst else Ok dst) ;;
    dst <~ mlift (if negb (isEmpty (b_dockerfile b))
                  then setEnv "DOCKER_BUILD_DOCKERFILE" (b_dockerfile b) dst else Ok dst) ;;
    dst <~ mlift (if negb (isEmpty (b_context b))
                  then setEnv "DOCKER_BUILD_CONTEXT" (b_context b) dst else Ok dst) ;;
    dst <~ mlift (if negb (isEmpty (b_image b))
                  then let alias := (Trim available (b_image b) +++ ":" +++ md_uid (st_meta dst))%string in
                       dst <- setEnv "DOCKER_BUILD_IMAGE" (Expand available (b_image b)) dst ;;
                       setEnv "DOCKER_BUILD_IMAGE_ALIAS" (Expand available alias) dst
                  else Ok dst) ;;
    mret (set_mounts (st_volumes dst ++ [{| mo_name := "_docker_socket"; mo_path := "/var/run/docker.sock" |}]) dst).

  (** yaml/compiler/compiler.go 117-142. *)
  Definition compileVolume (namespace : string) (spec : Spec) (from : option Volume) : M Spec :=
    uid <~ fresh rnd ;;
    from <~ mlift (deref from) ;;
    mlift (addVolume
      {| ev_meta := {| md_uid := uid; md_namespace := namespace; md_name := vo_name from; md_labels := Some [] |};
         ev_empty := match vo_empty from with
                     | Some e => Some {| ed_medium := ve_medium e; ed_size := ve_size e |}
                     | None => None
                     end;
         ev_host := match vo_empty from, vo_host from with
                    | None, Some h => Some (vh_path h)
                    | _, _ => None
                    end |} spec).

  (** yaml/compiler/compiler.go 144-154. *)
  Definition compileClone (c : Compiler) (from : Pipeline) (ws : string * string * string) (spec : Spec) : M Spec :=
    let '(base, dir, workspace) := ws in
    let src := createClone from in
    '(spec, dst) <~ createStep spec src ;;
    let dst := set_docker (set_pull PullIfNotExists (st_docker dst)) dst in
    dst <~ mlift (setupCloneDepth from dst) ;;
    '(spec, dst) <~ setupCloneCredentials spec dst (gitCredentials c) ;;
    let dst := setupWorkingDir src dst workspace in
    dst <~ mlift (setupWorkspaceEnv dst base dir workspace) ;;
    dst <~ setupWorkspaceMount c dst base dir workspace ;;
    mret (sp_set_steps (sp_steps spec ++ [dst]) spec).

  (** yaml/compiler/compiler.go 159-184. *)
  Definition compileService (c : Compiler) (from : Pipeline) (isSerial : bool) (ws : string * string * string)
      (spec : Spec) (service : option Container) : M Spec :=
    let '(base, dir, workspace) := ws in
    service <~ mlift (deref service) ;;
    '(spec, step) <~ createStep spec service ;;
    let step := set_detach true step in
    let step := setupWorkingDir service step workspace in
    step <~ mlift (setupWorkspaceEnv step base dir workspace) ;;
    step <~ setupWorkspaceMount c step base dir workspace ;;
    let step := if isSkipped c service then set_policy RunNever step else step in
    let step := if isPrivileged c service then set_docker (set_privileged true (st_docker step)) step else step in
    let step := if negb isSerial && negb (cl_disable (pi_clone from))
                then set_depends (st_depends step ++ [cloneStepName]) step else step in
    mret (sp_set_steps (sp_steps spec ++ [step]) spec).

  (** yaml/compiler/compiler.go 193-223. *)
  Definition compileStep (c : Compiler) (from : Pipeline) (isSerial : bool) (ws : string * string * string)
      (acc : Spec * smap string) (container : option Container) : M (Spec * smap string) :=
    let '(base, dir, workspace) := ws in
    let '(spec, rename) := acc in
    container <~ mlift (deref container) ;;
    '(spec, step, rename) <~
      match ct_build container with
      | Some b =>
          step <~ createBuildStep spec container b ;;
          mret (spec, step, mset (b_image b) (md_uid (st_meta step)) rename)
      | None =>
          '(spec, step) <~ createStep spec container ;;
          mret (spec, step, rename)
      end ;;
    let step := setupWorkingDir container step workspace in
    step <~ mlift (setupWorkspaceEnv step base dir workspace) ;;
    step <~ setupWorkspaceMount c step base dir workspace ;;
    let step := if isSkipped c container then set_policy RunNever step else step in
    let step := if isPrivileged c container then set_docker (set_privileged true (st_docker step)) step else step in
    let step := if negb isSerial && negb (cl_disable (pi_clone from)) && Nat.eqb (length (st_depends step)) 0
                then set_depends (st_depends step ++ [cloneStepName]) step else step in
    mret (sp_set_steps (sp_steps spec ++ [step]) spec, rename).

  (** yaml/compiler/compiler.go 228-241. *)
  Definition compileSocket (namespace : string) (rename : smap string) (spec : Spec) : M Spec :=
    match sp_docker spec with
    | Some _ =>
        if Nat.ltb 0 (length rename)
        then uid <~ fresh rnd ;;
             mlift (addVolume
               {| ev_meta := {| md_uid := uid; md_namespace := namespace; md_name := "_docker_socket"; md_labels := Some [] |};
                  ev_empty := None; ev_host := Some "/var/run/docker.sock" |} spec)
        else mret spec
    | None => mret spec
    end.

  (** yaml/compiler/compiler.go 247-252. *)
  Fixpoint renameImage (rename : smap string) (image : string) : string :=
    match rename with
    | [] => image
    | (k, v) :: rs =>
        renameImage rs
          (if MatchTag available image k
           then Expand available (Trim available image +++ ":" +++ v)%string else image)
    end.
  (** yaml/compiler/compiler.go 246-253. *)
  Fixpoint renameSteps (i : nat) (rename : smap string) (steps : list Step) : list Step :=
    match steps with
    | [] => []
    | s :: ss =>
        set_docker (set_image (renameImage (ord i rename) (ds_image (st_docker s))) (st_docker s)) s
        :: renameSteps (S i) rename ss
    end.

  (** yaml/compiler/compiler.go 74-80. *)
  Fixpoint computeSerial (steps : list (option Container)) : outcome bool :=
    match steps with
    | [] => Ok true
    | s :: ss => c <- deref s ;; if negb (Nat.eqb (length (ct_depends c)) 0) then Ok false else computeSerial ss
    end.

  (** yaml/compiler/compiler.go 82-102. *)
  Definition initialSpec (namespace : string) (from : Pipeline) : Spec :=
    {| sp_meta := {| md_uid := namespace; md_namespace := namespace; md_name := namespace;
                     md_labels := Some [("io.drone.pipeline.name", pi_name from);
                                        ("io.drone.pipeline.kind", pi_kind from);
                                        ("io.drone.pipeline.type", pi_type from)] |};
       sp_platform := {| pl_os := pl_os (pi_platform from); pl_arch := pl_arch (pi_platform from);
                         pl_variant := pl_variant (pi_platform from); pl_version := pl_version (pi_platform from) |};
       sp_docker := Some {| dc_auths := []; dc_volumes := [] |};
       sp_files := []; sp_secrets := []; sp_steps := [] |}.

  (** yaml/compiler/compiler.go 71-262. *)
  Definition Compile (c : Compiler) (from : Pipeline) : M Spec :=
    namespace <~ fresh rnd ;;
    isSerial <~ mlift (computeSerial (pi_steps from)) ;;
    let spec := initialSpec namespace from in
    let ws := createWorkspace from in
    spec <~ setupWorkspace c spec ;;
    spec <~ mfold (compileVolume namespace) (pi_volumes from) spec ;;
    spec <~ (if cl_disable (pi_clone from) then mret spec else compileClone c from ws spec) ;;
    spec <~ mfold (compileService c from isSerial ws) (pi_services from) spec ;;
    '(spec, rename) <~ mfold (compileStep c from isSerial ws) (pi_steps from) (spec, []) ;;
    spec <~ compileSocket namespace rename spec ;;
    let spec := sp_set_steps (renameSteps 0 rename (sp_steps spec)) spec in
    match co_transform c with Some f => f spec | None => mret spec end.
End Compile.
