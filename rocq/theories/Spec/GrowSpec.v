(** * GrowSpec.v: pipelines that share a beginning. *)
From Verif Require Import Model.Go Model.Types Model.Engine Spec.CompileSpec.

(** What a compilation can depend on, steps aside.  The version, concurrency limit, node
    selector, trigger, pull secrets and dependencies on other pipelines are not among it. *)
Definition SameButSteps (p q : Pipeline) : Prop :=
  pi_kind q = pi_kind p /\ pi_type q = pi_type p /\ pi_name q = pi_name p /\ pi_clone q = pi_clone p /\
  pi_platform q = pi_platform p /\ pi_services q = pi_services p /\ pi_volumes q = pi_volumes p /\
  pi_workspace q = pi_workspace p.
(** [q] is [p] with [more] steps at the end. *)
Definition Grown (p : Pipeline) (more : list (option Container)) (q : Pipeline) : Prop :=
  SameButSteps p q /\ pi_steps q = pi_steps p ++ more.

(** [b] is [a] with steps and files at the end, as many steps as [k]. *)
Definition Extends (k : nat) (a b : Spec) : Prop :=
  sp_meta b = sp_meta a /\ sp_platform b = sp_platform a /\ sp_secrets b = sp_secrets a /\
  (exists s, sp_steps b = sp_steps a ++ s /\ length s = k) /\
  (exists f, sp_files b = sp_files a ++ f /\ length f <= k).
(** Volumes agree but for the random name of the last one, the socket of the Docker daemon. *)
Definition anonymous (v : EVolume) : EVolume :=
  {| ev_meta := {| md_uid := ""; md_namespace := md_namespace (ev_meta v); md_name := md_name (ev_meta v); md_labels := md_labels (ev_meta v) |};
     ev_empty := ev_empty v; ev_host := ev_host v |}.
Definition SameVolumes (a b : Spec) : Prop :=
  option_map (fun d => (dc_auths d, map anonymous (dc_volumes d))) (sp_docker b) =
  option_map (fun d => (dc_auths d, map anonymous (dc_volumes d))) (sp_docker a).
