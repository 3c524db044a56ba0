(** * SecretNameSpec.v: other names for the secrets a pipeline asks for. *)
From Verif Require Import Model.Go Model.Types Model.Engine Model.Compiler.

Section Secrets.
  Variable r : string -> string.
  (** What a variable and a setting have as literal beside the name of a secret. *)
  Variable lit : string.
  Variable val : value.
  Definition askVariable (v : Variable_) : Variable_ :=
    match v_secret v with "" => v | s => {| v_value := lit; v_secret := r s |} end.
  Definition askParameter (v : Parameter_) : Parameter_ :=
    match p_secret v with "" => v | s => {| p_value := val; p_secret := r s |} end.
  Definition askContainer (c : Container) : Container :=
    {| ct_build := ct_build c; ct_command := ct_command c; ct_commands := ct_commands c; ct_detach := ct_detach c;
       ct_depends := ct_depends c; ct_devices := ct_devices c; ct_dns := ct_dns c; ct_dns_search := ct_dns_search c;
       ct_entrypoint := ct_entrypoint c; ct_environment := map (fun x => (fst x, option_map askVariable (snd x))) (ct_environment c);
       ct_extra_hosts := ct_extra_hosts c; ct_failure := ct_failure c;
       ct_image := ct_image c; ct_network := ct_network c; ct_name := ct_name c; ct_ports := ct_ports c; ct_privileged := ct_privileged c;
       ct_pull := ct_pull c; ct_push := ct_push c; ct_resources := ct_resources c;
       ct_settings := map (fun x => (fst x, option_map askParameter (snd x))) (ct_settings c); ct_shell := ct_shell c;
       ct_user := ct_user c; ct_volumes := ct_volumes c; ct_when := ct_when c; ct_working_dir := ct_working_dir c |}.
  Definition askPipeline (p : Pipeline) : Pipeline :=
    {| pi_version := pi_version p; pi_kind := pi_kind p; pi_type := pi_type p; pi_name := pi_name p; pi_clone := pi_clone p;
       pi_concurrency := pi_concurrency p; pi_depends := pi_depends p; pi_node := pi_node p;
       pi_platform := pi_platform p; pi_pull_secrets := map r (pi_pull_secrets p);
       pi_services := map (option_map askContainer) (pi_services p);
       pi_steps := map (option_map askContainer) (pi_steps p); pi_trigger := pi_trigger p;
       pi_volumes := pi_volumes p; pi_workspace := pi_workspace p |}.

  (** The same names in a compiled spec: in what the steps ask for. *)
  Definition askSecret (v : SecretVar) : SecretVar := {| sv_name := r (sv_name v); sv_env := sv_env v |}.
  Definition askStep (s : Step) : Step :=
    {| st_meta := st_meta s; st_detach := st_detach s; st_depends := st_depends s; st_devices := st_devices s;
       st_docker := st_docker s; st_envs := st_envs s; st_files := st_files s; st_ignore_err := st_ignore_err s;
       st_ignore_stderr := st_ignore_stderr s; st_ignore_stdout := st_ignore_stdout s;
       st_resources := st_resources s; st_policy := st_policy s; st_secrets := map askSecret (st_secrets s);
       st_volumes := st_volumes s; st_working_dir := st_working_dir s |}.
  Definition askSpec (s : Spec) : Spec :=
    {| sp_meta := sp_meta s; sp_platform := sp_platform s; sp_docker := sp_docker s;
       sp_files := sp_files s; sp_secrets := sp_secrets s; sp_steps := map askStep (sp_steps s) |}.

  (** Names stay names. *)
  Definition SecretRenaming : Prop := forall a, a <> "" -> r a <> "".
  Definition BlindToSecrets (c : Compiler) : Prop := forall x,
    match co_privileged c with Some f => f (askContainer x) = f x | None => True end /\
    match co_skip c with Some f => f (askContainer x) = f x | None => True end.
End Secrets.
