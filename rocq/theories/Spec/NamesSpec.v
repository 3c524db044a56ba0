(** * NamesSpec.v: other names for the steps and services of a pipeline. *)
From Verif Require Import Model.Go Model.Types Model.Engine Model.Compiler.

Section Names.
  Variable r : string -> string.
  Definition nameContainer (c : Container) : Container :=
    {| ct_build := ct_build c; ct_command := ct_command c; ct_commands := ct_commands c; ct_detach := ct_detach c;
       ct_depends := map r (ct_depends c); ct_devices := ct_devices c; ct_dns := ct_dns c; ct_dns_search := ct_dns_search c;
       ct_entrypoint := ct_entrypoint c; ct_environment := ct_environment c; ct_extra_hosts := ct_extra_hosts c; ct_failure := ct_failure c;
       ct_image := ct_image c; ct_network := ct_network c; ct_name := r (ct_name c); ct_ports := ct_ports c; ct_privileged := ct_privileged c;
       ct_pull := ct_pull c; ct_push := ct_push c; ct_resources := ct_resources c; ct_settings := ct_settings c; ct_shell := ct_shell c;
       ct_user := ct_user c; ct_volumes := ct_volumes c; ct_when := ct_when c; ct_working_dir := ct_working_dir c |}.
  Definition namePipeline (p : Pipeline) : Pipeline :=
    {| pi_version := pi_version p; pi_kind := pi_kind p; pi_type := pi_type p; pi_name := pi_name p; pi_clone := pi_clone p;
       pi_concurrency := pi_concurrency p; pi_depends := pi_depends p; pi_node := pi_node p;
       pi_platform := pi_platform p; pi_pull_secrets := pi_pull_secrets p;
       pi_services := map (option_map nameContainer) (pi_services p);
       pi_steps := map (option_map nameContainer) (pi_steps p); pi_trigger := pi_trigger p; pi_volumes := pi_volumes p;
       pi_workspace := pi_workspace p |}.

  (** The same names in a compiled spec: of steps, in what they wait for and in their label, and of the
      script files and their mounts. *)
  Definition nameLabel (x : string * string) : string * string :=
    (fst x, if String.eqb (fst x) "io.drone.step.name" then r (snd x) else snd x).
  Definition nameMeta (m : Metadata) : Metadata :=
    {| md_uid := md_uid m; md_namespace := md_namespace m; md_name := r (md_name m); md_labels := option_map (map nameLabel) (md_labels m) |}.
  Definition nameMount (f : FileMount) : FileMount :=
    {| fm_name := r (fm_name f); fm_path := fm_path f; fm_mode := fm_mode f |}.
  Definition nameFile (f : File) : File := {| fi_meta := nameMeta (fi_meta f); fi_data := fi_data f |}.
  Definition nameStep (s : Step) : Step :=
    {| st_meta := nameMeta (st_meta s); st_detach := st_detach s; st_depends := map r (st_depends s); st_devices := st_devices s;
       st_docker := st_docker s; st_envs := st_envs s; st_files := map nameMount (st_files s); st_ignore_err := st_ignore_err s;
       st_ignore_stderr := st_ignore_stderr s; st_ignore_stdout := st_ignore_stdout s;
       st_resources := st_resources s; st_policy := st_policy s; st_secrets := st_secrets s; st_volumes := st_volumes s;
       st_working_dir := st_working_dir s |}.
  Definition nameSpec (s : Spec) : Spec :=
    {| sp_meta := sp_meta s; sp_platform := sp_platform s; sp_docker := sp_docker s;
       sp_files := map nameFile (sp_files s); sp_secrets := sp_secrets s; sp_steps := map nameStep (sp_steps s) |}.

  (** Different names stay different, and the names the tools know stay what they are. *)
  Definition Renaming : Prop := (forall a b, r a = r b -> a = b) /\ r "" = "" /\ r "clone" = "clone".
  (** For the compiler. *)
  Definition KeepsOwn : Prop := r "clone" = "clone" /\ r ".git-credentials" = ".git-credentials".
  Definition Blind (c : Compiler) : Prop := forall x,
    match co_privileged c with Some f => f (nameContainer x) = f x | None => True end /\
    match co_skip c with Some f => f (nameContainer x) = f x | None => True end.
End Names.
