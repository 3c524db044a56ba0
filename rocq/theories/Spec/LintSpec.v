(** * LintSpec.v: which pipelines and manifests are well-formed. *)
From Verif Require Import Model.Go Model.Types.

Definition Reserved (name : string) : Prop := In name ["workspace"; "_workspace"; "_docker_socket"].

Definition SupportedPlatform (p : Platform) : Prop :=
  In (pl_os p) [""; "linux"; "windows"] /\
  In (pl_arch p) [""; "arm"; "arm64"; "amd64"; "ppc64le"; "s390x"].

(** What only trusted repositories may ask for. *)
Definition Unprivileged (c : Container) : Prop :=
  ct_privileged c = false /\ ct_devices c = [] /\ ct_dns c = [] /\ ct_dns_search c = [] /\
  ct_extra_hosts c = [] /\ ct_network c = "" /\
  (forall p, In (Some p) (ct_ports c) -> po_host p = 0%Z).
Definition UnprivilegedVolume (v : Volume) : Prop :=
  vo_host v = None /\ (forall e, vo_empty v = Some e -> ve_medium e <> "memory").

Definition GoodContainer (trusted : bool) (c : Container) : Prop :=
  ct_name c <> "" /\
  (match ct_build c with None => ct_image c <> "" | Some b => b_image b <> "" end) /\
  (forall m, In (Some m) (ct_volumes c) -> ~ Reserved (vm_name m)) /\
  (trusted = false -> Unprivileged c).
Definition GoodVolume (trusted : bool) (v : Volume) : Prop :=
  ~ Reserved (vo_name v) /\ (trusted = false -> UnprivilegedVolume v).

(** The names a step may use besides those of other steps. *)
Definition cloneNames (p : Pipeline) : list string :=
  if cl_disable (pi_clone p) then [] else ["clone"].

(** Every dependency of a step names an earlier step or the clone step. *)
Definition DepsEarlier (base : list string) (steps : list Container) : Prop :=
  forall before s after d, steps = before ++ s :: after -> In d (ct_depends s) ->
    In d base \/ In d (map ct_name before).

(** A pipeline without null entries in its lists, given by those lists. *)
Definition NoNulls (p : Pipeline) (steps services : list Container) (vols : list Volume) : Prop :=
  pi_steps p = map Some steps /\ pi_services p = map Some services /\ pi_volumes p = map Some vols /\
  Forall (fun c => ~ In None (ct_ports c) /\ ~ In None (ct_volumes c)) (steps ++ services).

Definition WellFormed (trusted : bool) (p : Pipeline) (steps services : list Container) (vols : list Volume) : Prop :=
  SupportedPlatform (pi_platform p) /\
  Forall (GoodVolume trusted) vols /\
  Forall (GoodContainer trusted) (steps ++ services) /\
  NoDup (cloneNames p ++ map ct_name (steps ++ services)) /\
  DepsEarlier (cloneNames p) steps.

(** [Problem trusted p steps services vols e]: message [e] names a real defect. *)
Inductive ContainerProblem (trusted : bool) (c : Container) : string -> Prop :=
| CP_image : ct_build c = None -> ct_image c = "" -> ContainerProblem trusted c "linter: invalid or missing image"
| CP_build b : ct_build c = Some b -> b_image b = "" ->
    ContainerProblem trusted c "linter: invalid or missing build image"
| CP_name : ct_name c = "" -> ContainerProblem trusted c "linter: invalid or missing name"
| CP_port p : trusted = false -> In (Some p) (ct_ports c) -> po_host p <> 0%Z ->
    ContainerProblem trusted c "linter: untrusted repositories cannot map to a host port"
| CP_privileged : trusted = false -> ct_privileged c = true ->
    ContainerProblem trusted c "linter: untrusted repositories cannot enable privileged mode"
| CP_devices : trusted = false -> ct_devices c <> [] ->
    ContainerProblem trusted c "linter: untrusted repositories cannot mount devices"
| CP_dns : trusted = false -> ct_dns c <> [] ->
    ContainerProblem trusted c "linter: untrusted repositories cannot configure dns"
| CP_dns_search : trusted = false -> ct_dns_search c <> [] ->
    ContainerProblem trusted c "linter: untrusted repositories cannot configure dns_search"
| CP_extra_hosts : trusted = false -> ct_extra_hosts c <> [] ->
    ContainerProblem trusted c "linter: untrusted repositories cannot configure extra_hosts"
| CP_network : trusted = false -> ct_network c <> "" ->
    ContainerProblem trusted c "linter: untrusted repositories cannot configure network_mode"
| CP_mount m : In (Some m) (ct_volumes c) -> Reserved (vm_name m) ->
    ContainerProblem trusted c ("linter: invalid volume name: " +++ vm_name m)%string.
Inductive Problem (trusted : bool) (p : Pipeline) (steps services : list Container) (vols : list Volume) : string -> Prop :=
| P_container c e : In c (steps ++ services) -> ContainerProblem trusted c e -> Problem trusted p steps services vols e
| P_os : ~ In (pl_os (pi_platform p)) [""; "linux"; "windows"] ->
    Problem trusted p steps services vols ("linter: unsupported os: " +++ pl_os (pi_platform p))%string
| P_arch : ~ In (pl_arch (pi_platform p)) [""; "arm"; "arm64"; "amd64"; "ppc64le"; "s390x"] ->
    Problem trusted p steps services vols ("linter: unsupported architecture: " +++ pl_arch (pi_platform p))%string
| P_memory v e : In v vols -> trusted = false -> vo_empty v = Some e -> ve_medium e = "memory" ->
    Problem trusted p steps services vols "linter: untrusted repositories cannot mount in-memory volumes"
| P_host v h : In v vols -> trusted = false -> vo_host v = Some h ->
    Problem trusted p steps services vols "linter: untrusted repositories cannot mount host volumes"
| P_volume v : In v vols -> Reserved (vo_name v) ->
    Problem trusted p steps services vols ("linter: invalid volume name: " +++ vo_name v)%string
| P_duplicate : ~ NoDup (cloneNames p ++ map ct_name (steps ++ services)) ->
    Problem trusted p steps services vols "linter: duplicate step names"
| P_missing before s after d : steps = before ++ s :: after -> In d (ct_depends s) -> d <> ct_name s ->
    ~ In d (cloneNames p) -> ~ In d (map ct_name before) ->
    Problem trusted p steps services vols "linter: invalid or unknown step dependency"
| P_cycle s : In s steps -> In (ct_name s) (ct_depends s) ->
    Problem trusted p steps services vols "linter: cyclical step dependency detected".

(** A relation has no cycle when its transitive closure is irreflexive. *)
Inductive Path {A} (R : A -> A -> Prop) : A -> A -> Prop :=
| Path_one a b : R a b -> Path R a b
| Path_step a b c : R a b -> Path R b c -> Path R a c.
Definition Acyclic {A} (R : A -> A -> Prop) : Prop := forall a, ~ Path R a a.

(** The dependency relation between the containers of a list, by name. *)
Definition DependsOn (l : list Container) (a b : string) : Prop :=
  exists c, In c l /\ ct_name c = a /\ In b (ct_depends c).

(** The pipelines of a manifest, in order. *)
Fixpoint pipelinesOf (rs : list Resource) : list Pipeline :=
  match rs with
  | [] => []
  | RPipeline p :: rs' => p :: pipelinesOf rs'
  | _ :: rs' => pipelinesOf rs'
  end.
Definition PipelineDependsOn (l : list Pipeline) (a b : string) : Prop :=
  exists p, In p l /\ pi_name p = a /\ In b (pi_depends p).
Definition DockerPipeline (p : Pipeline) : Prop :=
  (pi_kind p = "pipeline" \/ pi_kind p = "") /\ (pi_type p = "" \/ pi_type p = "docker").
Definition GoodManifest (ps : list Pipeline) : Prop :=
  NoDup (map pi_name ps) /\
  (forall before p after d, ps = before ++ p :: after -> In d (pi_depends p) -> In d (map pi_name before)) /\
  Forall (fun p => DockerPipeline p -> SupportedPlatform (pi_platform p)) ps.

(** The messages a manifest can be refused with, and what each means. *)
Inductive ManifestProblem (ps : list Pipeline) : string -> Prop :=
| MP_duplicate : ~ NoDup (map pi_name ps) -> ManifestProblem ps "linter: duplicate pipeline names"
| MP_missing before p after d : ps = before ++ p :: after -> In d (pi_depends p) -> d <> pi_name p ->
    ~ In d (map pi_name before) -> ManifestProblem ps "linter: invalid or unknown pipeline dependency"
| MP_self p : In p ps -> In (pi_name p) (pi_depends p) ->
    ManifestProblem ps "linter: pipeline cannot have a dependency on itself"
| MP_os p : In p ps -> DockerPipeline p -> ~ In (pl_os (pi_platform p)) [""; "linux"; "windows"] ->
    ManifestProblem ps ("linter: unsupported os: " +++ pl_os (pi_platform p))%string
| MP_arch p : In p ps -> DockerPipeline p ->
    ~ In (pl_arch (pi_platform p)) [""; "arm"; "arm64"; "amd64"; "ppc64le"; "s390x"] ->
    ManifestProblem ps ("linter: unsupported architecture: " +++ pl_arch (pi_platform p))%string.
