(** * VolumeNameSpec.v: other names for the volumes of a pipeline. *)
From Verif Require Import Model.Go Model.Types Model.Engine Model.Compiler.

Section Volumes.
  Variable r : string -> string.
  Definition callMount (m : VolumeMount) : VolumeMount := {| vm_name := r (vm_name m); vm_path := vm_path m |}.
  Definition callDevice (d : VolumeDevice) : VolumeDevice := {| vd_name := r (vd_name d); vd_path := vd_path d |}.
  Definition callVolume (v : Volume) : Volume := {| vo_name := r (vo_name v); vo_empty := vo_empty v; vo_host := vo_host v |}.
  Definition callContainer (c : Container) : Container :=
    {| ct_build := ct_build c; ct_command := ct_command c; ct_commands := ct_commands c; ct_detach := ct_detach c;
       ct_depends := ct_depends c; ct_devices := map (option_map callDevice) (ct_devices c); ct_dns := ct_dns c; ct_dns_search := ct_dns_search c;
       ct_entrypoint := ct_entrypoint c; ct_environment := ct_environment c; ct_extra_hosts := ct_extra_hosts c; ct_failure := ct_failure c;
       ct_image := ct_image c; ct_network := ct_network c; ct_name := ct_name c; ct_ports := ct_ports c; ct_privileged := ct_privileged c;
       ct_pull := ct_pull c; ct_push := ct_push c; ct_resources := ct_resources c; ct_settings := ct_settings c; ct_shell := ct_shell c;
       ct_user := ct_user c; ct_volumes := map (option_map callMount) (ct_volumes c); ct_when := ct_when c; ct_working_dir := ct_working_dir c |}.
  Definition callPipeline (p : Pipeline) : Pipeline :=
    {| pi_version := pi_version p; pi_kind := pi_kind p; pi_type := pi_type p; pi_name := pi_name p; pi_clone := pi_clone p;
       pi_concurrency := pi_concurrency p; pi_depends := pi_depends p; pi_node := pi_node p;
       pi_platform := pi_platform p; pi_pull_secrets := pi_pull_secrets p;
       pi_services := map (option_map callContainer) (pi_services p);
       pi_steps := map (option_map callContainer) (pi_steps p); pi_trigger := pi_trigger p;
       pi_volumes := map (option_map callVolume) (pi_volumes p); pi_workspace := pi_workspace p |}.

  (** The same names in a compiled spec: of volumes, and in what the steps mount. *)
  Definition callMeta (m : Metadata) : Metadata :=
    {| md_uid := md_uid m; md_namespace := md_namespace m; md_name := r (md_name m); md_labels := md_labels m |}.
  Definition callEVolume (v : EVolume) : EVolume := {| ev_meta := callMeta (ev_meta v); ev_empty := ev_empty v; ev_host := ev_host v |}.
  Definition callEMount (m : Mount) : Mount := {| mo_name := r (mo_name m); mo_path := mo_path m |}.
  Definition callStep (s : Step) : Step :=
    {| st_meta := st_meta s; st_detach := st_detach s; st_depends := st_depends s; st_devices := st_devices s;
       st_docker := st_docker s; st_envs := st_envs s; st_files := st_files s; st_ignore_err := st_ignore_err s;
       st_ignore_stderr := st_ignore_stderr s; st_ignore_stdout := st_ignore_stdout s;
       st_resources := st_resources s; st_policy := st_policy s; st_secrets := st_secrets s;
       st_volumes := map callEMount (st_volumes s); st_working_dir := st_working_dir s |}.
  Definition callSpec (s : Spec) : Spec :=
    {| sp_meta := sp_meta s; sp_platform := sp_platform s;
       sp_docker := option_map (fun d => {| dc_auths := dc_auths d; dc_volumes := map callEVolume (dc_volumes d) |}) (sp_docker s);
       sp_files := sp_files s; sp_secrets := sp_secrets s; sp_steps := map callStep (sp_steps s) |}.

  (** Different names stay different, and the names the tools know stay what they are. *)
  Definition VolumeRenaming : Prop := (forall a b, r a = r b -> a = b) /\
    Forall (fun a => r a = a) ["workspace"; "_workspace"; "_docker_socket"; "host"].
  Definition BlindToVolumes (c : Compiler) : Prop := forall x,
    match co_privileged c with Some f => f (callContainer x) = f x | None => True end /\
    match co_skip c with Some f => f (callContainer x) = f x | None => True end.
End Volumes.
