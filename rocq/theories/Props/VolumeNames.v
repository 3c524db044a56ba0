(** * VolumeNames.v: theorem C126. *)
From Verif Require Import Model.Go Model.Types Model.Cond Model.Image Model.Dind Model.Compiler Model.Lint Spec.CompileSpec Spec.VolumeNameSpec
  Proofs.Renamed Proofs.VolumeNames Conform.Pipelines.

(** ** C126 *)
Theorem C126_lint : forall r, VolumeRenaming r -> forall p trusted, Lint (RPipeline (callPipeline r p)) trusted = Lint (RPipeline p) trusted.
Proof. exact lint_called. Qed.
Print Assumptions C126_lint.
Theorem C126_compile : forall r, VolumeRenaming r -> forall w c hostDir hostMount, Standard w c hostDir hostMount -> BlindToVolumes r c ->
  forall p n, compileIn w c (callPipeline r p) n =
    match compileIn w c p n with Ok (s, m) => Ok (callSpec r s, m) | Err e => Err e | Panic => Panic end.
Proof. exact compile_called. Qed.
Print Assumptions C126_compile.
Theorem C126_callbacks : forall r c av images glob data,
  co_privileged c = Some (DindFunc av images) -> co_skip c = Some (SkipFunc glob data) -> BlindToVolumes r c.
Proof. exact package_blind_volumes. Qed.
Print Assumptions C126_callbacks.
(** The names the compiler uses itself are taken. *)
Theorem C126_reserved_refuted : exists r p, (forall a b, r a = r b -> a = b) /\
  Lint (RPipeline p) true = Ok tt /\ Lint (RPipeline (callPipeline r p)) true = Err "linter: invalid volume name: _docker_socket".
Proof.
  exists (swap "cache" "_docker_socket"), samplePipeline. split; [exact (swap_inj "cache" "_docker_socket")|]. split; reflexivity.
Qed.
Print Assumptions C126_reserved_refuted.
Example C126_case : VolumeRenaming (swap "cache" "modules") /\ Lint (RPipeline samplePipeline) false = Ok tt /\
  map (option_map vo_name) (pi_volumes (callPipeline (swap "cache" "modules") samplePipeline)) = [Some "modules"] /\
  map (option_map vo_name) (pi_volumes samplePipeline) = [Some "cache"].
Proof.
  split; [split; [exact (swap_inj "cache" "modules")|repeat constructor]|]. split; [reflexivity|]. split; reflexivity.
Qed.
