(** * BuildSpec.v: specs without what depends on the build, and flags that differ in the build only. *)
From Verif Require Import Model.Go Model.Types Model.Cond Model.Engine Model.Main.

(** The variables about the commit. *)
Definition commitVars : list string :=
  ["DRONE_COMMIT_BRANCH"; "DRONE_COMMIT_SHA"; "DRONE_COMMIT_REF"; "DRONE_REMOTE_URL"; "DRONE_BUILD_EVENT"; "DRONE_TAG"].
Definition otherVar (x : string * string) : bool := negb (existsb (String.eqb (fst x)) commitVars).
(** A step without these variables, as if it ran always. *)
Definition anyStep (s : Step) : Step :=
  {| st_meta := st_meta s; st_detach := st_detach s; st_depends := st_depends s; st_devices := st_devices s;
     st_docker := st_docker s; st_envs := match st_envs s with Some e => Some (filter otherVar e) | None => None end;
     st_files := st_files s; st_ignore_err := st_ignore_err s;
     st_ignore_stderr := st_ignore_stderr s; st_ignore_stdout := st_ignore_stdout s;
     st_resources := st_resources s; st_policy := RunAlways; st_secrets := st_secrets s; st_volumes := st_volumes s;
     st_working_dir := st_working_dir s |}.
Definition anyBuild (s : Spec) : Spec :=
  {| sp_meta := sp_meta s; sp_platform := sp_platform s; sp_docker := sp_docker s;
     sp_files := sp_files s; sp_secrets := sp_secrets s; sp_steps := map anyStep (sp_steps s) |}.

(** Flags for another build: event, repository, remote, branch, ref, commit, cron job, instance and
    deployment target may differ. *)
Definition SameButBuild (f f' : CompileFlags) : Prop :=
  cf_trusted f = cf_trusted f' /\ cf_label f = cf_label f' /\ cf_volume f = cf_volume f' /\ cf_network f = cf_network f' /\
  cf_env f = cf_env f' /\ cf_dind f = cf_dind f' /\ cf_creds f = cf_creds f' /\ cf_secret f = cf_secret f' /\
  cf_registry f = cf_registry f' /\ cf_username f = cf_username f' /\ cf_password f = cf_password f' /\
  cf_machine f = cf_machine f' /\ cf_memlimit f = cf_memlimit f'.

(** Steps that differ in whether they are skipped, and in nothing else. *)
Definition SameButSkipped (x y : Step) : Prop :=
  set_policy RunAlways x = set_policy RunAlways y /\
  (st_policy x = st_policy y \/ st_policy x = RunNever \/ st_policy y = RunNever).
