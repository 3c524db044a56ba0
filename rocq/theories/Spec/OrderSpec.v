(** * OrderSpec.v: pipelines and manifests in another order. *)
From Coq Require Import Sorting.Permutation.
From Verif Require Import Model.Go Model.Types Spec.LintSpec.

(** The same steps, services and volumes in another order; the same clone section and platform. *)
Definition Reordered (p q : Pipeline) : Prop :=
  Permutation (pi_steps p) (pi_steps q) /\ Permutation (pi_services p) (pi_services q) /\ Permutation (pi_volumes p) (pi_volumes q) /\
  pi_clone p = pi_clone q /\ pi_platform p = pi_platform q.
(** Nothing is wrong with the pipeline, whatever the order of its steps: every dependency is there and none leads back. *)
Definition Sound (trusted : bool) (p : Pipeline) (steps services : list Container) (vols : list Volume) : Prop :=
  SupportedPlatform (pi_platform p) /\ Forall (GoodVolume trusted) vols /\ Forall (GoodContainer trusted) (steps ++ services) /\
  NoDup (cloneNames p ++ map ct_name (steps ++ services)) /\
  (forall s d, In s steps -> In d (ct_depends s) -> In d (cloneNames p) \/ In d (map ct_name steps)) /\
  Acyclic (DependsOn steps).
Definition SoundManifest (ps : list Pipeline) : Prop :=
  NoDup (map pi_name ps) /\ Forall (fun p => DockerPipeline p -> SupportedPlatform (pi_platform p)) ps /\
  (forall p d, In p ps -> In d (pi_depends p) -> In d (map pi_name ps)) /\ Acyclic (PipelineDependsOn ps).
