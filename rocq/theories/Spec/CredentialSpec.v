(** * CredentialSpec.v: specs with the credentials left out, and flags that differ in credentials only. *)
From Verif Require Import Model.Go Model.Types Model.Engine Model.Main.

(** ** A spec in which every credential is blank. *)
Definition hideVar (x : string * string) : string * string :=
  (fst x, if String.eqb (fst x) "CI_NETRC_PASSWORD" || String.eqb (fst x) "DRONE_NETRC_PASSWORD" then "" else snd x).
Definition hideStep (s : Step) : Step :=
  {| st_meta := st_meta s; st_detach := st_detach s; st_depends := st_depends s; st_devices := st_devices s;
     st_docker := st_docker s; st_envs := match st_envs s with Some e => Some (map hideVar e) | None => None end;
     st_files := st_files s; st_ignore_err := st_ignore_err s;
     st_ignore_stderr := st_ignore_stderr s; st_ignore_stdout := st_ignore_stdout s;
     st_resources := st_resources s; st_policy := st_policy s; st_secrets := st_secrets s; st_volumes := st_volumes s;
     st_working_dir := st_working_dir s |}.
Definition hideFile (f : File) : File :=
  {| fi_meta := fi_meta f; fi_data := if String.eqb (md_name (fi_meta f)) ".git-credentials" then "" else fi_data f |}.
Definition hideSecret (x : ESecret) : ESecret := {| es_meta := es_meta x; es_data := "" |}.
Definition hideAuth (a : Auth) : Auth :=
  {| au_address := au_address a; au_username := au_username a; au_password := "" |}.
Definition hideDocker (d : DockerConfig) : DockerConfig :=
  {| dc_auths := map hideAuth (dc_auths d); dc_volumes := dc_volumes d |}.
Definition hide (s : Spec) : Spec :=
  {| sp_meta := sp_meta s; sp_platform := sp_platform s;
     sp_docker := match sp_docker s with Some d => Some (hideDocker d) | None => None end;
     sp_files := map hideFile (sp_files s); sp_secrets := map hideSecret (sp_secrets s);
     sp_steps := map hideStep (sp_steps s) |}.

(** ** Flags that differ in credentials only. *)
(** The url of a registry with another password. *)
Definition SameRegistry (u u' : URL) : Prop :=
  u_host u = u_host u' /\
  match u_user u, u_user u' with
  | None, None => True
  | Some (n, None), Some (n', None) => n = n'
  | Some (n, Some _), Some (n', Some _) => n = n'
  | _, _ => False
  end.
Definition SameButCredentials (f f' : CompileFlags) : Prop :=
  cf_trusted f = cf_trusted f' /\ cf_label f = cf_label f' /\ cf_volume f = cf_volume f' /\ cf_network f = cf_network f' /\
  cf_env f = cf_env f' /\ cf_dind f = cf_dind f' /\ cf_event f = cf_event f' /\ cf_repo f = cf_repo f' /\
  cf_remote f = cf_remote f' /\ cf_branch f = cf_branch f' /\ cf_ref f = cf_ref f' /\ cf_sha f = cf_sha f' /\
  (cf_creds f = [] <-> cf_creds f' = []) /\ cf_cron f = cf_cron f' /\ cf_instance f = cf_instance f' /\
  cf_deploy f = cf_deploy f' /\ map fst (cf_secret f) = map fst (cf_secret f') /\
  Forall2 SameRegistry (cf_registry f) (cf_registry f') /\ cf_username f = cf_username f' /\
  (cf_password f = "" <-> cf_password f' = "") /\ cf_machine f = cf_machine f' /\ cf_memlimit f = cf_memlimit f'.
