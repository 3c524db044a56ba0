(** * Renamed.v: theorem C124. *)
From Verif Require Import Model.Go Model.Types Model.Cond Model.Image Model.Dind Model.Compiler Model.Lint Spec.CompileSpec Spec.NamesSpec Proofs.Renamed Conform.Pipelines.

(** ** C124 *)
Theorem C124_lint : forall r, Renaming r -> forall p trusted, Lint (RPipeline (namePipeline r p)) trusted = Lint (RPipeline p) trusted.
Proof. exact lint_named. Qed.
Print Assumptions C124_lint.
Theorem C124_compile : forall w c hostDir hostMount, Standard w c hostDir hostMount -> forall r, KeepsOwn r -> Blind r c ->
  forall p n, compileIn w c (namePipeline r p) n =
    match compileIn w c p n with Ok (s, m) => Ok (nameSpec r s, m) | Err e => Err e | Panic => Panic end.
Proof. exact compile_named. Qed.
Print Assumptions C124_compile.
Theorem C124_callbacks : forall r c av images glob data,
  co_privileged c = Some (DindFunc av images) -> co_skip c = Some (SkipFunc glob data) -> Blind r c.
Proof. exact package_blind. Qed.
Print Assumptions C124_callbacks.
(** The name of the clone step is taken. *)
Theorem C124_clone_refuted : exists r p, (forall a b, r a = r b -> a = b) /\ r "" = "" /\
  Lint (RPipeline p) false = Ok tt /\ Lint (RPipeline (namePipeline r p)) false <> Ok tt.
Proof.
  exists (swap "build" "clone"), samplePipeline. split; [exact (swap_inj "build" "clone")|]. split; [reflexivity|].
  split; [reflexivity|]. cbn. discriminate.
Qed.
Print Assumptions C124_clone_refuted.
Example C124_case : Renaming (swap "build" "compile") /\ KeepsOwn (swap "build" "compile") /\
  Lint (RPipeline samplePipeline) false = Ok tt /\ namePipeline (swap "build" "compile") samplePipeline <> samplePipeline.
Proof.
  split; [split; [exact (swap_inj "build" "compile")|split; reflexivity]|]. split; [split; reflexivity|]. split; [reflexivity|].
  intro E. apply (f_equal (fun p => map (option_map ct_name) (pi_steps p))) in E. cbn in E. discriminate.
Qed.
