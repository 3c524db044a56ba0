(** * Sub.v: theorem C121. *)
From Verif Require Import Model.Go Model.Types Model.Lint Spec.LintSpec Spec.SubSpec Proofs.SubLint Conform.Pipelines.

(** ** C121 *)
Theorem C121_part : forall trusted p q ps pv qs qv pvol qvol, NoNulls p ps pv pvol -> NoNulls q qs qv qvol -> Part p q ->
  Lint (RPipeline p) trusted = Ok tt -> (Lint (RPipeline q) trusted = Ok tt <-> Closed q qs).
Proof. exact part_accepted. Qed.
Print Assumptions C121_part.
Theorem C121_part_refused : forall trusted p q ps pv qs qv pvol qvol, NoNulls p ps pv pvol -> NoNulls q qs qv qvol -> Part p q ->
  Lint (RPipeline p) trusted = Ok tt -> (Lint (RPipeline q) trusted = Err "linter: invalid or unknown step dependency" <-> ~ Closed q qs).
Proof. exact part_refused. Qed.
Print Assumptions C121_part_refused.
Theorem C121_manifest : forall m m' trusted, Sub (mf_resources m') (mf_resources m) -> lintManifest m trusted = Ok tt ->
  (lintManifest m' trusted = Ok tt <-> ClosedManifest (pipelinesOf (mf_resources m'))).
Proof. exact part_manifest. Qed.
Print Assumptions C121_manifest.
Theorem C121_manifest_refused : forall m m' trusted, Sub (mf_resources m') (mf_resources m) -> lintManifest m trusted = Ok tt ->
  (lintManifest m' trusted = Err "linter: invalid or unknown pipeline dependency" <-> ~ ClosedManifest (pipelinesOf (mf_resources m'))).
Proof. exact part_manifest_refused. Qed.
Print Assumptions C121_manifest_refused.

Definition deploy : Container := container "deploy" "alpine" None ["make deploy"] ["build"] [].
Definition whole : Pipeline := with_steps samplePipeline [sampleBuild; sampleTest; deploy].
(** A volume that is left out while a step mounts it is not noticed. *)
Definition noVolumes : Pipeline :=
  {| pi_version := ""; pi_kind := "pipeline"; pi_type := "docker"; pi_name := "default"; pi_clone := noClone;
     pi_concurrency := 0; pi_depends := []; pi_node := []; pi_platform := pi_platform samplePipeline;
     pi_pull_secrets := []; pi_services := [Some sampleDb]; pi_steps := [Some sampleBuild];
     pi_trigger := noConds; pi_volumes := []; pi_workspace := noWorkspace |}.
Theorem C121_mounts_refuted : exists p q ps pv qs qv pvol qvol s m, NoNulls p ps pv pvol /\ NoNulls q qs qv qvol /\ Part p q /\
  Lint (RPipeline p) false = Ok tt /\ Lint (RPipeline q) false = Ok tt /\
  In s qs /\ In (Some m) (ct_volumes s) /\ In (vm_name m) (map vo_name pvol) /\ ~ In (vm_name m) (map vo_name qvol).
Proof.
  exists samplePipeline, noVolumes, [sampleBuild; sampleTest], [sampleDb], [sampleBuild], [sampleDb], [sampleVolume], [], sampleBuild, sampleMount.
  split; [exact samplePipeline_NoNulls|]. split; [repeat split; repeat constructor; cbn; intuition discriminate|].
  split; [repeat split; repeat constructor|]. cbn. repeat split; auto.
Qed.
Print Assumptions C121_mounts_refuted.
Example C121_case : Lint (RPipeline whole) false = Ok tt /\
  Part whole (without_services (with_steps samplePipeline [sampleBuild; deploy])) /\
  Lint (RPipeline (without_services (with_steps samplePipeline [sampleBuild; deploy]))) false = Ok tt /\
  Part whole (with_steps samplePipeline [sampleTest; deploy]) /\ ~ Closed (with_steps samplePipeline [sampleTest; deploy]) [sampleTest; deploy] /\
  Lint (RPipeline (with_steps samplePipeline [sampleTest; deploy])) false = Err "linter: invalid or unknown step dependency" /\
  lintManifest {| mf_resources := [RCron sampleCron; RPipeline secondPipeline] |} false = Err "linter: invalid or unknown pipeline dependency".
Proof.
  split; [reflexivity|]. split; [repeat split; repeat constructor|]. split; [reflexivity|]. split; [repeat split; repeat constructor|].
  split; [|split; reflexivity]. intro C. destruct (C deploy "build") as [X|X]; cbn in *; auto.
  - destruct X as [X|[]]. discriminate.
  - destruct X as [X|[X|[]]]; discriminate.
Qed.
