(** * IgnoredSpec.v: what the compiler does not look at. *)
From Verif Require Import Model.Go Model.Types Model.RawParse Model.Main Spec.CompileSpec Spec.MainSpec.

(** Equal but for the arguments and labels. *)
Definition SameBuild (a b : Build) : Prop :=
  b_cache_from a = b_cache_from b /\ b_context a = b_context b /\ b_dockerfile a = b_dockerfile b /\ b_image a = b_image b.
(** Equal but for the build, devices, push and shell. *)
Definition SameService (c d : Container) : Prop :=
  ct_command c = ct_command d /\ ct_commands c = ct_commands d /\ ct_detach c = ct_detach d /\ ct_depends c = ct_depends d /\
  ct_dns c = ct_dns d /\ ct_dns_search c = ct_dns_search d /\ ct_entrypoint c = ct_entrypoint d /\ ct_environment c = ct_environment d /\
  ct_extra_hosts c = ct_extra_hosts d /\ ct_failure c = ct_failure d /\ ct_image c = ct_image d /\ ct_network c = ct_network d /\
  ct_name c = ct_name d /\ ct_ports c = ct_ports d /\ ct_privileged c = ct_privileged d /\ ct_pull c = ct_pull d /\
  ct_resources c = ct_resources d /\ ct_settings c = ct_settings d /\ ct_user c = ct_user d /\ ct_volumes c = ct_volumes d /\
  ct_when c = ct_when d /\ ct_working_dir c = ct_working_dir d.
(** Steps with a build section that agree in what is left of such a step. *)
Definition SameBuildStep (c d : Container) : Prop :=
  ct_command c = ct_command d /\ ct_commands c = ct_commands d /\ ct_detach c = ct_detach d /\ ct_depends c = ct_depends d /\
  ct_dns c = ct_dns d /\ ct_entrypoint c = ct_entrypoint d /\ ct_failure c = ct_failure d /\ ct_image c = ct_image d /\
  ct_name c = ct_name d /\ ct_resources c = ct_resources d /\ ct_when c = ct_when d.
Definition SameStep (c d : Container) : Prop :=
  match ct_build c, ct_build d with
  | None, None => SameService c d
  | Some a, Some b => SameBuild a b /\ SameBuildStep c d
  | _, _ => False
  end.
Definition SameEntry {A} (R : A -> A -> Prop) (a b : option A) : Prop :=
  match a, b with None, None => True | Some a, Some b => R a b | _, _ => False end.
(** Equal but for the version, concurrency, dependencies, node, pull secrets and trigger, and what is ignored of containers. *)
Definition SamePipeline (p q : Pipeline) : Prop :=
  pi_name p = pi_name q /\ pi_kind p = pi_kind q /\ pi_type p = pi_type q /\ pi_clone p = pi_clone q /\ pi_platform p = pi_platform q /\
  pi_volumes p = pi_volumes q /\ pi_workspace p = pi_workspace q /\
  Forall2 (SameEntry SameService) (pi_services p) (pi_services q) /\ Forall2 (SameEntry SameStep) (pi_steps p) (pi_steps q).
(** A function that judges containers by their image, conditions and what they run. *)
Definition Judges (f : Container -> bool) : Prop := forall c d,
  ct_image c = ct_image d -> ct_when c = ct_when d -> ct_command c = ct_command d -> ct_commands c = ct_commands d -> ct_entrypoint c = ct_entrypoint d ->
  f c = f d.
