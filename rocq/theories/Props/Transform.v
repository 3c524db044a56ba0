(** * Transform.v: theorems C43 to C49. *)
From Coq Require Import Sorting.Permutation.
From Verif Require Import Model.Go Model.Types Model.Cond Model.Engine Model.Compiler Model.Transform
  Spec.CompileSpec Spec.TransformSpec Proofs.TransformFacts Conform.Pipelines Conform.Worlds.

(** The spec of the concrete cases: clone, a service, a build step and a step that uses it. *)
Definition built : Spec := specFrom sampleWorld defaultCompiler buildPipeline.
Example built_compiled : Compiled sampleWorld defaultCompiler buildPipeline 0 built.
Proof. eexists. vm_compute. reflexivity. Qed.
Definition policies (s : Spec) : list (string * RunPolicy) := map (fun t => (stepName t, st_policy t)) (sp_steps s).

(** ** C43 *)
Theorem C43_include : forall names spec,
  SameSpecBut [] (OffIff (fun s => names <> [] /\ notClone s /\ ~ In (stepName s) names)) spec (Include names spec).
Proof. exact include_spec. Qed.
Print Assumptions C43_include.
Theorem C43_exclude : forall names spec,
  SameSpecBut [] (OffIff (fun s => notClone s /\ In (stepName s) names)) spec (Exclude names spec).
Proof. exact exclude_spec. Qed.
Print Assumptions C43_exclude.
Theorem C43_resume : forall name spec, exists before after,
  sp_steps spec = before ++ after /\ ~ In name (map stepName before) /\
  (after = [] \/ exists s rest, after = s :: rest /\ stepName s = name) /\
  SameSpecBut [] (fun _ _ => True) spec (ResumeAt name spec) /\
  exists before', sp_steps (ResumeAt name spec) = before' ++ after /\
    Forall2 (OffIff (fun s => name <> "" /\ notClone s)) before before'.
Proof. exact resume_spec. Qed.
Print Assumptions C43_resume.
Example C43_case :
  policies (Include ["publish"] built) =
    [("clone", RunOnSuccess); ("db", RunNever); ("build", RunNever); ("publish", RunOnSuccess); ("use", RunNever)] /\
  policies (Exclude ["publish"; "clone"] built) =
    [("clone", RunOnSuccess); ("db", RunOnSuccess); ("build", RunOnSuccess); ("publish", RunNever); ("use", RunOnSuccess)] /\
  policies (ResumeAt "publish" built) =
    [("clone", RunOnSuccess); ("db", RunNever); ("build", RunNever); ("publish", RunOnSuccess); ("use", RunOnSuccess)].
Proof. vm_compute. auto. Qed.

(** ** C44 *)
Theorem C44_requested : forall rnd State (f : string -> State -> State * option ESecret) ord st n spec,
  (forall l, Permutation l (ord l)) ->
  exists names added, NoDup names /\ (forall x, In x names <-> Used spec x) /\
    WithSecretFunc rnd State f ord st spec n =
      Ok ((fst (answers f names st), sp_set_secrets (sp_secrets spec ++ added) spec), n + length added) /\
    length added = length (snd (answers f names st)) /\
    Forall2 (fun uid ab => Stamped (md_namespace (sp_meta spec)) uid (fst ab) (snd ab))
      (map rnd (seq n (length added))) (combine (snd (answers f names st)) added).
Proof. exact secretFunc_spec. Qed.
Print Assumptions C44_requested.
(** Two steps use token, a disabled one uses other; the callback records what it was asked. *)
Definition withSecrets (policy : RunPolicy) (names : list string) : Step :=
  set_policy policy (set_secrets (map (fun x => {| sv_name := x; sv_env := toUpper x |}) names) noStep).
Definition askedSpec : Spec :=
  sp_set_steps [withSecrets RunOnSuccess ["token"; "key"]; withSecrets RunNever ["other"]; withSecrets RunAlways ["key"; "token"]] built.
Definition recorder (name : string) (log : list string) : list string * option ESecret :=
  (log ++ [name], if String.eqb name "key" then None
   else Some {| es_meta := {| md_uid := ""; md_namespace := ""; md_name := name; md_labels := None |}; es_data := "s3cr3t" |}).
Example C44_case : exists spec',
  WithSecretFunc unary (list string) recorder (fun l => rev l) [] askedSpec 5 = Ok ((["key"; "token"], spec'), 6) /\
  sp_secrets spec' = [{| es_meta := {| md_uid := unary 5; md_namespace := md_uid (sp_meta built); md_name := "token"; md_labels := None |};
                         es_data := "s3cr3t" |}].
Proof. eexists. vm_compute. split; reflexivity. Qed.

(** ** C45 *)
Theorem C45_environ : forall envs spec, NoDup (mkeys envs) ->
  (envs = [] \/ Forall (fun s => st_envs s <> None) (sp_steps spec) ->
   exists spec', WithEnviron envs spec = Ok spec' /\
     SameSpecBut [] (fun s t => SameStepBut "envs" s t /\ Written envs (st_envs s) (st_envs t)) spec spec') /\
  (envs <> [] -> ~ Forall (fun s => st_envs s <> None) (sp_steps spec) -> WithEnviron envs spec = Panic).
Proof. exact environ_spec. Qed.
Print Assumptions C45_environ.
Theorem C45_environ_idempotent : forall envs envs' spec spec1, NoDup (mkeys envs) -> Permutation envs envs' ->
  WithEnviron envs spec = Ok spec1 -> exists spec2, WithEnviron envs' spec1 = Ok spec2 /\
    SameSpecBut [] (fun s t => SameStepBut "envs" s t /\ forall k, envOf t k = envOf s k) spec1 spec2.
Proof. exact environ_idempotent. Qed.
Print Assumptions C45_environ_idempotent.
Theorem C45_netrc : forall machine username password spec,
  exists spec', WithNetrc machine username password spec = Ok spec' /\
  (username = "" \/ password = "" -> spec' = spec) /\
  (username <> "" -> password <> "" ->
   SameSpecBut [] (fun s t => SameStepBut "envs" s t /\ Written (netrcVars machine username password) (st_envs s) (st_envs t)) spec spec').
Proof. exact netrc_spec. Qed.
Print Assumptions C45_netrc.
Theorem C45_proxy : forall env ord spec, (forall m, Permutation m (ord m)) -> Forall (fun s => st_envs s <> None) (sp_steps spec) ->
  exists spec', WithProxy env ord spec = Ok spec' /\
    SameSpecBut [] (fun s t => SameStepBut "envs" s t /\ forall k v,
      envOf t k = Some v <-> ProxyVar env k v \/ ((forall x, ~ ProxyVar env k x) /\ envOf s k = Some v)) spec spec'.
Proof. exact proxy_spec. Qed.
Print Assumptions C45_proxy.
Definition afterOk (o : outcome Spec) : Spec := match o with Ok s => s | _ => noSpec end.
Definition vars (s : Spec) (k : string) : list (option string) := map (fun t => envOf t k) (sp_steps s).
Definition sampleEnv (k : string) : string :=
  if String.eqb k "http_proxy" then "lower" else if String.eqb k "HTTP_PROXY" then "upper" else if String.eqb k "no_proxy" then "local" else "".
Example C45_case :
  vars (afterOk (WithEnviron [("CI", "true"); ("DOCKER_BUILD_CONTEXT", "x")] built)) "DOCKER_BUILD_CONTEXT" =
    [Some "x"; Some "x"; Some "x"; Some "x"; Some "x"] /\
  vars built "DOCKER_BUILD_CONTEXT" = [None; None; None; Some "."; None] /\
  vars (afterOk (WithNetrc "m" "u" "p" built)) "DRONE_NETRC_USERNAME" = repeat (Some "u") 5 /\
  vars (afterOk (WithNetrc "m" "u" "" built)) "DRONE_NETRC_USERNAME" = repeat None 5 /\
  vars (afterOk (WithProxy sampleEnv (fun m => rev m) built)) "http_proxy" = repeat (Some "upper") 5 /\
  vars (afterOk (WithProxy sampleEnv (fun m => rev m) built)) "NO_PROXY" = repeat (Some "local") 5 /\
  vars (afterOk (WithProxy sampleEnv (fun m => rev m) built)) "https_proxy" = repeat None 5 /\
  WithEnviron [("CI", "true")] (sp_set_steps [noStep] built) = Panic.
Proof. vm_compute. repeat split. Qed.

(** ** C46 *)
Theorem C46_limits : forall memory cpu spec,
  (memory = 0%Z -> cpu = 0%Z -> WithLimits memory cpu spec = spec) /\
  (memory <> 0%Z \/ cpu <> 0%Z ->
   SameSpecBut [] (fun s t => SameStepBut "resources" s t /\ exists r, st_resources t = Some r /\
     er_limits r = Some {| eo_cpu := cpu; eo_memory := memory |} /\
     er_requests r = match st_resources s with Some b => er_requests b | None => None end) spec (WithLimits memory cpu spec)).
Proof. exact limits_spec. Qed.
Print Assumptions C46_limits.
(** Setting only a memory limit removes the CPU limit a step has. *)
Definition limited : Step :=
  set_resources (Some {| er_limits := Some {| eo_cpu := 500; eo_memory := 0 |}; er_requests := Some {| eo_cpu := 100; eo_memory := 0 |} |}) noStep.
Theorem C46_keeps_cpu_refuted : exists spec s t r l, sp_steps spec = [s] /\ sp_steps (WithLimits 1024 0 spec) = [t] /\
  st_resources s = Some r /\ er_limits r = Some l /\ eo_cpu l = 500%Z /\
  exists r' l', st_resources t = Some r' /\ er_limits r' = Some l' /\ eo_cpu l' = 0%Z.
Proof.
  exists (sp_set_steps [limited] built), limited. eexists _, _, _. split; [reflexivity|]. split; [reflexivity|]. split; [reflexivity|].
  split; [reflexivity|]. split; [reflexivity|]. eexists _, _. split; [reflexivity|]. split; reflexivity.
Qed.
Print Assumptions C46_keeps_cpu_refuted.

(** ** C47 *)
Theorem C47_labels : forall ord labels spec, (forall i m, Permutation m (ord i m)) -> NoDup (mkeys labels) ->
  (forall d, sp_docker spec = Some d -> labels = [] \/ Labelled spec ->
   exists spec' vols, WithLables ord labels spec = Ok spec' /\
     SameSpecBut ["metadata"; "docker"] (fun s t => SameStepBut "labels" s t /\ Written labels (md_labels (st_meta s)) (md_labels (st_meta t))) spec spec' /\
     SameMetaBut "labels" (sp_meta spec) (sp_meta spec') /\ Written labels (md_labels (sp_meta spec)) (md_labels (sp_meta spec')) /\
     sp_docker spec' = Some {| dc_auths := dc_auths d; dc_volumes := vols |} /\
     Forall2 (fun v w => ev_empty w = ev_empty v /\ ev_host w = ev_host v /\ SameMetaBut "labels" (ev_meta v) (ev_meta w) /\
       Written labels (md_labels (ev_meta v)) (md_labels (ev_meta w))) (dc_volumes d) vols) /\
  (sp_docker spec = None \/ (labels <> [] /\ ~ Labelled spec) -> WithLables ord labels spec = Panic).
Proof. exact labels_spec. Qed.
Print Assumptions C47_labels.
Theorem C47_networks : forall networks spec,
  SameSpecBut [] (fun s t => SameStepBut "networks" s t /\
    ds_networks (st_docker t) = ds_networks (st_docker s) ++ networks) spec (WithNetworks networks spec).
Proof. exact networks_spec. Qed.
Print Assumptions C47_networks.
Theorem C47_auths : forall auths spec d, sp_docker spec = Some d -> exists spec', WithAuths auths spec = Ok spec' /\
  SameSpecBut ["docker"] eq spec spec' /\
  sp_docker spec' = Some {| dc_auths := dc_auths d ++ auths; dc_volumes := dc_volumes d |}.
Proof. exact auths_spec. Qed.
Print Assumptions C47_auths.
Theorem C47_auths_func : forall auths spec d, sp_docker spec = Some d -> WithAuthsFunc auths spec = WithAuths auths spec.
Proof. exact authsFunc_spec. Qed.
Print Assumptions C47_auths_func.
Theorem C47_secrets : forall rnd secrets n spec, exists added,
  WithSecrets rnd secrets spec n = Ok (sp_set_secrets (sp_secrets spec ++ added) spec, n + length secrets) /\
  map (fun s => (md_name (es_meta s), es_data s)) added = secrets /\
  map (fun s => md_uid (es_meta s)) added = map rnd (seq n (length secrets)) /\
  Forall (fun s => md_namespace (es_meta s) = md_namespace (sp_meta spec) /\ md_labels (es_meta s) = None) added.
Proof. exact secrets_spec. Qed.
Print Assumptions C47_secrets.
Theorem C47_volumes : forall rnd volumes n spec d, sp_docker spec = Some d -> exists spec' added,
  WithVolumes rnd volumes spec n = Ok (spec', n + 2 * length volumes) /\
  SameSpecBut ["docker"] (fun s t => SameStepBut "volumes" s t /\
    st_volumes t = st_volumes s ++ map (fun vc => {| mo_name := md_name (ev_meta (fst vc)); mo_path := snd (snd vc) |}) (combine added volumes)) spec spec' /\
  sp_docker spec' = Some {| dc_auths := dc_auths d; dc_volumes := dc_volumes d ++ added |} /\
  Forall2 (fun v kv => HostVolume (md_name (sp_meta spec)) (fst kv) v) added volumes /\
  flat_map (fun v => [md_uid (ev_meta v); md_name (ev_meta v)]) added = map rnd (seq n (2 * length volumes)).
Proof. exact volumes_spec. Qed.
Print Assumptions C47_volumes.
Theorem C47_volume_slice : forall rnd ord entries n spec, (forall m, Permutation m (ord m)) ->
  exists volumes, NoDup (mkeys volumes) /\ (forall k v, In (k, v) volumes <-> LastPair entries k v) /\
    WithVolumeSlice rnd ord entries spec n = WithVolumes rnd volumes spec n.
Proof. exact volumeSlice_spec. Qed.
Print Assumptions C47_volume_slice.
Definition afterM (o : outcome (Spec * nat)) : Spec := match o with Ok (s, _) => s | _ => noSpec end.
Example C47_case :
  map (fun s => md_labels (st_meta s)) (sp_steps (afterOk (WithLables (fun _ m => m) [("team", "a"); ("io.drone.step.name", "x")] built))) =
    repeat (Some [("io.drone.step.name", "x"); ("team", "a")]) 5 /\
  map (fun s => ds_networks (st_docker s)) (sp_steps (WithNetworks ["n2"] (WithNetworks ["n1"] built))) = repeat ["n1"; "n2"] 5 /\
  map (fun s => skipn 1 (st_volumes s)) (sp_steps (afterM (WithVolumeSlice unary (fun m => m) ["/a:/x"; "/b"; "/c:/y:ro"; "/a:/z"] built 0))) =
    map (fun s => skipn 1 (st_volumes s ++ [{| mo_name := unary 1; mo_path := "/z" |}])) (sp_steps built) /\
  match sp_docker (afterM (WithVolumeSlice unary (fun m => m) ["/a:/x"; "/b"; "/c:/y:ro"; "/a:/z"] built 0)) with
  | Some d => map ev_host (dc_volumes d)
  | None => []
  end = [None; None; Some "/var/run/docker.sock"; Some "/a"] /\
  map es_data (sp_secrets (afterM (WithSecrets unary [("a", "1"); ("b", "2")] built 0))) = ["1"; "2"].
Proof. vm_compute. repeat split. Qed.

(** ** C48 *)
Theorem C48_default_workspace : forall w c hostMount p n spec, Standard w c None hostMount -> Compiled w c p n spec ->
  (exists d, sp_docker spec = Some d) /\ Forall (fun s => st_envs s <> None) (sp_steps spec) /\ Labelled spec.
Proof. exact compiled_prepared. Qed.
Print Assumptions C48_default_workspace.
Theorem C48_no_panic : forall w c hostMount p n spec, Standard w c None hostMount -> Compiled w c p n spec ->
  forall ord labels envs env order auths rnd volumes m,
  (forall i m, Permutation m (ord i m)) -> NoDup (mkeys labels) -> NoDup (mkeys envs) -> (forall m, Permutation m (order m)) ->
  (exists s, WithLables ord labels spec = Ok s) /\ (exists s, WithEnviron envs spec = Ok s) /\ (exists s, WithProxy env order spec = Ok s) /\
  (exists s, WithAuths auths spec = Ok s) /\ (exists s, WithVolumes rnd volumes spec m = Ok s).
Proof. exact compiled_no_panic. Qed.
Print Assumptions C48_no_panic.
Theorem C48_labels_refuted : exists w c hostDir hostMount p spec ord labels,
  Standard w c hostDir hostMount /\ Compiled w c p 0 spec /\ (forall i m, Permutation m (ord i m)) /\
  NoDup (mkeys labels) /\ WithLables ord labels spec = Panic.
Proof.
  exists sampleWorld, hostCompiler, (Some "/home/me/src"), true, buildPipeline, (specFrom sampleWorld hostCompiler buildPipeline), (fun _ m => m), [("team", "a")].
  split; [exact hostCompiler_Standard|]. split; [eexists; vm_compute; reflexivity|]. split; [intros; apply Permutation_refl|].
  split; [repeat constructor; intros []|]. vm_compute. reflexivity.
Qed.
Print Assumptions C48_labels_refuted.

(** ** C49 *)
Theorem C49_sequence : forall fns spec n r, Combine fns spec n = r <-> Chain fns spec n r.
Proof. exact combine_chain. Qed.
Print Assumptions C49_sequence.
Theorem C49_nesting : forall fns gns spec n, Combine (fns ++ gns) spec n = Combine [Combine fns; Combine gns] spec n.
Proof. exact combine_app. Qed.
Print Assumptions C49_nesting.
(** A compiler with a transform runs it last, on what it would return without it. *)
Theorem C49_attached : forall w c p n,
  compileIn w c p n = match compileIn w (noTransform c) p n with
                      | Ok (spec, m) => match co_transform c with Some f => f spec m | None => Ok (spec, m) end
                      | Err e => Err e
                      | Panic => Panic
                      end.
Proof. exact compile_transform. Qed.
Print Assumptions C49_attached.
Example C49_case :
  let first := fun s => mlift (WithEnviron [("A", "1")] s) in
  let second := fun s => mlift (WithEnviron [("A", "2"); ("B", "3")] s) in
  vars (afterM (Combine [first; second] built 0)) "A" = repeat (Some "2") 5 /\
  vars (afterM (Combine [second; first] built 0)) "A" = repeat (Some "1") 5 /\
  Combine [] built 7 = Ok (built, 7) /\
  Combine [fun s => mlift (WithEnviron [("A", "1")] (sp_set_steps [noStep] s)); second] built 0 = Panic.
Proof. vm_compute. repeat split. Qed.
