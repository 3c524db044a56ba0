(** * Engine.v: the data types of package github.com/drone/drone-runtime/engine (spec.go) that
    the compiler writes and the transforms change.

    The package is not part of /repo (go.mod pins it); the types are read off the composite
    literals in yaml/compiler and yaml/compiler/transform. Pointers to steps, volumes, files,
    secrets and to a step's docker section are never nil and never shared in a spec the
    compiler builds, so they are plain values here. Maps that may be nil are options. *)
From Verif Require Import Model.Go Model.Types Model.Cond.

(** yaml/compiler/compiler.go 83-92; labels are nil in yaml/compiler/clone.go 80-84. *)
Record Metadata : Type := {
  md_uid : string; md_namespace : string; md_name : string; md_labels : option (smap string) }.

(** yaml/compiler/compiler.go 118-140. *)
Record EmptyDir : Type := { ed_medium : string; ed_size : Z }.
Record EVolume : Type := {
  ev_meta : Metadata; ev_empty : option EmptyDir; ev_host : option string }.
(** yaml/compiler/step.go 81-84. *)
Record Mount : Type := { mo_name : string; mo_path : string }.
(** yaml/compiler/step.go 96-99. *)
Record SecretVar : Type := { sv_name : string; sv_env : string }.
(** yaml/compiler/script_posix.go 42-54. *)
Record File : Type := { fi_meta : Metadata; fi_data : string }.
Record FileMount : Type := { fm_name : string; fm_path : string; fm_mode : Z }.
(** yaml/compiler/transform/secret.go 28-35. *)
Record ESecret : Type := { es_meta : Metadata; es_data : string }.
(** yaml/compiler/transform/auths_test.go 17-21. *)
Record Auth : Type := { au_address : string; au_username : string; au_password : string }.
(** yaml/compiler/convert.go 37-41, 76-79, 86-89. *)
Record EPort : Type := { ep_port : Z; ep_host : Z; ep_protocol : string }.
Record EResourceObject : Type := { eo_cpu : Z; eo_memory : Z }.
Record EResources : Type := { er_limits : option EResourceObject; er_requests : option EResourceObject }.
(** yaml/compiler/convert.go 44-55. *)
Inductive PullPolicy : Type := PullDefault | PullAlways | PullIfNotExists | PullNever.

(** yaml/compiler/step.go 39-52. *)
Record DockerStep : Type := {
  ds_args : list string; ds_command : list string; ds_dns : list string; ds_dns_search : list string;
  ds_extra_hosts : list string; ds_image : string; ds_network : string; ds_networks : list string;
  ds_ports : list EPort; ds_privileged : bool; ds_pull : PullPolicy; ds_user : string }.

(** yaml/compiler/step.go 27-63. Devices and the two Ignore flags for output are never set. *)
Record Step : Type := {
  st_meta : Metadata; st_detach : bool; st_depends : list string; st_devices : list Mount;
  st_docker : DockerStep; st_envs : option (smap string); st_files : list FileMount;
  st_ignore_err : bool; st_ignore_stderr : bool; st_ignore_stdout : bool;
  st_resources : option EResources; st_policy : RunPolicy;
  st_secrets : list SecretVar; st_volumes : list Mount; st_working_dir : string }.

(** yaml/compiler/compiler.go 82-102. *)
Record DockerConfig : Type := { dc_auths : list Auth; dc_volumes : list EVolume }.
Record Spec : Type := {
  sp_meta : Metadata; sp_platform : Platform; sp_docker : option DockerConfig;
  sp_files : list File; sp_secrets : list ESecret; sp_steps : list Step }.

(** ** Assignments to one field. *)
Definition set_policy (x : RunPolicy) (s : Step) : Step :=
  {| st_meta := st_meta s; st_detach := st_detach s; st_depends := st_depends s; st_devices := st_devices s;
     st_docker := st_docker s; st_envs := st_envs s; st_files := st_files s; st_ignore_err := st_ignore_err s;
     st_ignore_stderr := st_ignore_stderr s; st_ignore_stdout := st_ignore_stdout s;
     st_resources := st_resources s; st_policy := x; st_secrets := st_secrets s; st_volumes := st_volumes s;
     st_working_dir := st_working_dir s |}.
Definition set_detach (x : bool) (s : Step) : Step :=
  {| st_meta := st_meta s; st_detach := x; st_depends := st_depends s; st_devices := st_devices s;
     st_docker := st_docker s; st_envs := st_envs s; st_files := st_files s; st_ignore_err := st_ignore_err s;
     st_ignore_stderr := st_ignore_stderr s; st_ignore_stdout := st_ignore_stdout s;
     st_resources := st_resources s; st_policy := st_policy s; st_secrets := st_secrets s; st_volumes := st_volumes s;
     st_working_dir := st_working_dir s |}.
Definition set_depends (x : list string) (s : Step) : Step :=
  {| st_meta := st_meta s; st_detach := st_detach s; st_depends := x; st_devices := st_devices s;
     st_docker := st_docker s; st_envs := st_envs s; st_files := st_files s; st_ignore_err := st_ignore_err s;
     st_ignore_stderr := st_ignore_stderr s; st_ignore_stdout := st_ignore_stdout s;
     st_resources := st_resources s; st_policy := st_policy s; st_secrets := st_secrets s; st_volumes := st_volumes s;
     st_working_dir := st_working_dir s |}.
Definition set_docker (x : DockerStep) (s : Step) : Step :=
  {| st_meta := st_meta s; st_detach := st_detach s; st_depends := st_depends s; st_devices := st_devices s;
     st_docker := x; st_envs := st_envs s; st_files := st_files s; st_ignore_err := st_ignore_err s;
     st_ignore_stderr := st_ignore_stderr s; st_ignore_stdout := st_ignore_stdout s;
     st_resources := st_resources s; st_policy := st_policy s; st_secrets := st_secrets s; st_volumes := st_volumes s;
     st_working_dir := st_working_dir s |}.
Definition set_envs (x : option (smap string)) (s : Step) : Step :=
  {| st_meta := st_meta s; st_detach := st_detach s; st_depends := st_depends s; st_devices := st_devices s;
     st_docker := st_docker s; st_envs := x; st_files := st_files s; st_ignore_err := st_ignore_err s;
     st_ignore_stderr := st_ignore_stderr s; st_ignore_stdout := st_ignore_stdout s;
     st_resources := st_resources s; st_policy := st_policy s; st_secrets := st_secrets s; st_volumes := st_volumes s;
     st_working_dir := st_working_dir s |}.
Definition set_files (x : list FileMount) (s : Step) : Step :=
  {| st_meta := st_meta s; st_detach := st_detach s; st_depends := st_depends s; st_devices := st_devices s;
     st_docker := st_docker s; st_envs := st_envs s; st_files := x; st_ignore_err := st_ignore_err s;
     st_ignore_stderr := st_ignore_stderr s; st_ignore_stdout := st_ignore_stdout s;
     st_resources := st_resources s; st_policy := st_policy s; st_secrets := st_secrets s; st_volumes := st_volumes s;
     st_working_dir := st_working_dir s |}.
Definition set_resources (x : option EResources) (s : Step) : Step :=
  {| st_meta := st_meta s; st_detach := st_detach s; st_depends := st_depends s; st_devices := st_devices s;
     st_docker := st_docker s; st_envs := st_envs s; st_files := st_files s; st_ignore_err := st_ignore_err s;
     st_ignore_stderr := st_ignore_stderr s; st_ignore_stdout := st_ignore_stdout s;
     st_resources := x; st_policy := st_policy s; st_secrets := st_secrets s; st_volumes := st_volumes s;
     st_working_dir := st_working_dir s |}.
Definition set_secrets (x : list SecretVar) (s : Step) : Step :=
  {| st_meta := st_meta s; st_detach := st_detach s; st_depends := st_depends s; st_devices := st_devices s;
     st_docker := st_docker s; st_envs := st_envs s; st_files := st_files s; st_ignore_err := st_ignore_err s;
     st_ignore_stderr := st_ignore_stderr s; st_ignore_stdout := st_ignore_stdout s;
     st_resources := st_resources s; st_policy := st_policy s; st_secrets := x; st_volumes := st_volumes s;
     st_working_dir := st_working_dir s |}.
Definition set_mounts (x : list Mount) (s : Step) : Step :=
  {| st_meta := st_meta s; st_detach := st_detach s; st_depends := st_depends s; st_devices := st_devices s;
     st_docker := st_docker s; st_envs := st_envs s; st_files := st_files s; st_ignore_err := st_ignore_err s;
     st_ignore_stderr := st_ignore_stderr s; st_ignore_stdout := st_ignore_stdout s;
     st_resources := st_resources s; st_policy := st_policy s; st_secrets := st_secrets s; st_volumes := x;
     st_working_dir := st_working_dir s |}.
Definition set_working_dir (x : string) (s : Step) : Step :=
  {| st_meta := st_meta s; st_detach := st_detach s; st_depends := st_depends s; st_devices := st_devices s;
     st_docker := st_docker s; st_envs := st_envs s; st_files := st_files s; st_ignore_err := st_ignore_err s;
     st_ignore_stderr := st_ignore_stderr s; st_ignore_stdout := st_ignore_stdout s;
     st_resources := st_resources s; st_policy := st_policy s; st_secrets := st_secrets s; st_volumes := st_volumes s;
     st_working_dir := x |}.
Definition set_meta (x : Metadata) (s : Step) : Step :=
  {| st_meta := x; st_detach := st_detach s; st_depends := st_depends s; st_devices := st_devices s;
     st_docker := st_docker s; st_envs := st_envs s; st_files := st_files s; st_ignore_err := st_ignore_err s;
     st_ignore_stderr := st_ignore_stderr s; st_ignore_stdout := st_ignore_stdout s;
     st_resources := st_resources s; st_policy := st_policy s; st_secrets := st_secrets s; st_volumes := st_volumes s;
     st_working_dir := st_working_dir s |}.

Definition set_image (x : string) (d : DockerStep) : DockerStep :=
  {| ds_args := ds_args d; ds_command := ds_command d; ds_dns := ds_dns d; ds_dns_search := ds_dns_search d;
     ds_extra_hosts := ds_extra_hosts d; ds_image := x; ds_network := ds_network d; ds_networks := ds_networks d;
     ds_ports := ds_ports d; ds_privileged := ds_privileged d; ds_pull := ds_pull d; ds_user := ds_user d |}.
Definition set_privileged (x : bool) (d : DockerStep) : DockerStep :=
  {| ds_args := ds_args d; ds_command := ds_command d; ds_dns := ds_dns d; ds_dns_search := ds_dns_search d;
     ds_extra_hosts := ds_extra_hosts d; ds_image := ds_image d; ds_network := ds_network d; ds_networks := ds_networks d;
     ds_ports := ds_ports d; ds_privileged := x; ds_pull := ds_pull d; ds_user := ds_user d |}.
Definition set_pull (x : PullPolicy) (d : DockerStep) : DockerStep :=
  {| ds_args := ds_args d; ds_command := ds_command d; ds_dns := ds_dns d; ds_dns_search := ds_dns_search d;
     ds_extra_hosts := ds_extra_hosts d; ds_image := ds_image d; ds_network := ds_network d; ds_networks := ds_networks d;
     ds_ports := ds_ports d; ds_privileged := ds_privileged d; ds_pull := x; ds_user := ds_user d |}.
Definition set_networks (x : list string) (d : DockerStep) : DockerStep :=
  {| ds_args := ds_args d; ds_command := ds_command d; ds_dns := ds_dns d; ds_dns_search := ds_dns_search d;
     ds_extra_hosts := ds_extra_hosts d; ds_image := ds_image d; ds_network := ds_network d; ds_networks := x;
     ds_ports := ds_ports d; ds_privileged := ds_privileged d; ds_pull := ds_pull d; ds_user := ds_user d |}.
Definition set_run (command args : list string) (d : DockerStep) : DockerStep :=
  {| ds_args := args; ds_command := command; ds_dns := ds_dns d; ds_dns_search := ds_dns_search d;
     ds_extra_hosts := ds_extra_hosts d; ds_image := ds_image d; ds_network := ds_network d; ds_networks := ds_networks d;
     ds_ports := ds_ports d; ds_privileged := ds_privileged d; ds_pull := ds_pull d; ds_user := ds_user d |}.

Definition sp_set_steps (x : list Step) (s : Spec) : Spec :=
  {| sp_meta := sp_meta s; sp_platform := sp_platform s; sp_docker := sp_docker s; sp_files := sp_files s;
     sp_secrets := sp_secrets s; sp_steps := x |}.
Definition sp_set_files (x : list File) (s : Spec) : Spec :=
  {| sp_meta := sp_meta s; sp_platform := sp_platform s; sp_docker := sp_docker s; sp_files := x;
     sp_secrets := sp_secrets s; sp_steps := sp_steps s |}.
Definition sp_set_secrets (x : list ESecret) (s : Spec) : Spec :=
  {| sp_meta := sp_meta s; sp_platform := sp_platform s; sp_docker := sp_docker s; sp_files := sp_files s;
     sp_secrets := x; sp_steps := sp_steps s |}.
Definition sp_set_docker (x : option DockerConfig) (s : Spec) : Spec :=
  {| sp_meta := sp_meta s; sp_platform := sp_platform s; sp_docker := x; sp_files := sp_files s;
     sp_secrets := sp_secrets s; sp_steps := sp_steps s |}.
Definition sp_set_meta (x : Metadata) (s : Spec) : Spec :=
  {| sp_meta := x; sp_platform := sp_platform s; sp_docker := sp_docker s; sp_files := sp_files s;
     sp_secrets := sp_secrets s; sp_steps := sp_steps s |}.

(** [spec.Docker.Volumes = append(spec.Docker.Volumes, v)]. *)
Definition addVolume (v : EVolume) (s : Spec) : outcome Spec :=
  d <- deref (sp_docker s) ;;
  Ok (sp_set_docker (Some {| dc_auths := dc_auths d; dc_volumes := dc_volumes d ++ [v] |}) s).
(** [step.Envs[k] = v]: panics on a nil map. *)
Definition setEnv (k v : string) (s : Step) : outcome Step :=
  e <- deref (st_envs s) ;; Ok (set_envs (Some (mset k v e)) s).
Fixpoint setEnvs (kvs : smap string) (s : Step) : outcome Step :=
  match kvs with
  | [] => Ok s
  | (k, v) :: r => s' <- setEnv k v s ;; setEnvs r s'
  end.
