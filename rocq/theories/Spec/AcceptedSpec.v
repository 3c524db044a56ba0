(** * AcceptedSpec.v: what the compile command may hand to the runner for an untrusted repository. *)
From Verif Require Import Model.Go Model.Types Model.Engine Model.Image Model.Compiler Model.Main Spec.CompileSpec Spec.MainSpec.

(** No null step, service, volume or mount; ports may be null. *)
Definition NoNullEntries (p : Pipeline) : Prop :=
  ~ In None (pi_steps p) /\ ~ In None (pi_services p) /\ ~ In None (pi_volumes p) /\
  forall c, In (Some c) (pi_steps p ++ pi_services p) -> ~ In None (ct_volumes c).
Definition NoNullPorts (p : Pipeline) : Prop :=
  forall c, In (Some c) (pi_steps p ++ pi_services p) -> ~ In None (ct_ports c).

(** The image is one of those whoever runs the command lets run privileged, and it runs what it was
    built to run. *)
Definition Allowed (mc : Machine) (fl : CompileFlags) (src : Container) : Prop :=
  ct_commands src = [] /\ ct_command src = [] /\ ct_entrypoint src = [] /\
  exists image, In image (cf_dind fl) /\ ImageMatch (w_available (mc_world mc)) image [ct_image src] = true.
(** The step of a spec does not reach the host, except as the command line says: privileged only
    with an allowed image, and the socket of the docker daemon only to build an image. *)
Definition Contained (mc : Machine) (fl : CompileFlags) (p : Pipeline) (spec : Spec) : Prop :=
  Forall NoHostAccess (sp_steps spec) /\
  (forall t, In t (sp_steps spec) -> ds_privileged (st_docker t) = true ->
     exists src, In (Some src) (pi_steps p ++ pi_services p) /\ ct_name src = stepName t /\ Allowed mc fl src) /\
  exists d added, sp_docker spec = Some d /\ Forall2 (fun v kv => ev_host v = Some (fst kv)) added (cf_volume fl) /\
    (forall v h, In v (dc_volumes d) -> ev_host v = Some h ->
       In v added \/ (HasBuild p /\ md_name (ev_meta v) = "_docker_socket" /\ h = "/var/run/docker.sock")) /\
    (forall t m, In t (sp_steps spec) -> In m (st_volumes t) -> mo_name m = "_docker_socket" ->
       In (mo_name m) (map (fun v => md_name (ev_meta v)) added) \/
       exists src b, In (Some src) (pi_steps p) /\ ct_name src = stepName t /\ ct_build src = Some b).

(** Turning the clone step off leaves nobody waiting for it. *)
Definition NobodyWaits (clone : bool) (p : Pipeline) : Prop :=
  (forall c, In (Some c) (pi_services p) -> ct_depends c = []) /\
  (clone = true \/ cl_disable (pi_clone p) = true \/ forall c, In (Some c) (pi_steps p) -> ~ In "clone" (ct_depends c)).
