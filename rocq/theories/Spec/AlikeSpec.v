(** * AlikeSpec.v: compiled steps up to what differs between two compilations. *)
From Verif Require Import Model.Go Model.Types Model.Engine Spec.CompileSpec.

(** Pipelines whose steps are given the same surroundings. *)
Definition SamePlace (p q : Pipeline) : Prop :=
  pi_platform q = pi_platform p /\ pi_workspace q = pi_workspace p /\ pi_clone q = pi_clone p /\ (Parallel p <-> Parallel q).

(** The steps differ at most in their random names and in the image. *)
Definition AlikeButImage (s t : Step) : Prop :=
  md_name (st_meta s) = md_name (st_meta t) /\ md_labels (st_meta s) = md_labels (st_meta t) /\
  st_detach s = st_detach t /\ st_depends s = st_depends t /\ st_devices s = st_devices t /\ st_envs s = st_envs t /\
  st_files s = st_files t /\ st_ignore_err s = st_ignore_err t /\ st_ignore_stderr s = st_ignore_stderr t /\
  st_ignore_stdout s = st_ignore_stdout t /\ st_resources s = st_resources t /\ st_policy s = st_policy t /\
  st_secrets s = st_secrets t /\ st_volumes s = st_volumes t /\ st_working_dir s = st_working_dir t /\
  let d := st_docker s in let e := st_docker t in
  ds_args d = ds_args e /\ ds_command d = ds_command e /\ ds_dns d = ds_dns e /\ ds_dns_search d = ds_dns_search e /\
  ds_extra_hosts d = ds_extra_hosts e /\ ds_network d = ds_network e /\ ds_networks d = ds_networks e /\ ds_ports d = ds_ports e /\
  ds_privileged d = ds_privileged e /\ ds_pull d = ds_pull e /\ ds_user d = ds_user e.
Definition Alike (s t : Step) : Prop := AlikeButImage s t /\ ds_image (st_docker s) = ds_image (st_docker t).
(** Of a build step the variables differ as well: the random name is part of the alias of the image. *)
Definition AlikeBuild (s t : Step) : Prop :=
  AlikeButImage (set_envs None s) (set_envs None t) /\
  exists e f, st_envs s = Some e /\ st_envs t = Some f /\ map fst e = map fst f /\
    forall k, k <> "DOCKER_BUILD_IMAGE_ALIAS" -> mget k e = mget k f.
