(** * Grow.v: theorem C119. *)
From Verif Require Import Model.Go Model.Types Model.Engine Model.Compiler Spec.CompileSpec Spec.GrowSpec Proofs.Grow
  Conform.Pipelines Conform.Worlds.

(** ** C119 *)
Theorem C119_unread : forall w c p q n, SameButSteps p q -> pi_steps q = pi_steps p -> compileIn w c q n = compileIn w c p n.
Proof. exact unread. Qed.
Print Assumptions C119_unread.
Theorem C119_compiles : forall w c hostDir hostMount, Standard w c hostDir hostMount -> forall p q more, Grown p more q -> forall n,
  (exists b, Compiled w c q n b) <-> (exists a, Compiled w c p n a) /\ exists new, more = map Some new /\ Forall NoNullStep new.
Proof. exact compiles_grown. Qed.
Print Assumptions C119_compiles.
Theorem C119_grown : forall w c hostDir hostMount, Standard w c hostDir hostMount -> forall p q more n a b,
  Grown p more q -> Compiled w c p n a -> Compiled w c q n b ->
  (forall x, In (Some x) more -> ct_build x = None) -> (Parallel p <-> Parallel q) ->
  Extends (length more) a b /\ SameVolumes a b /\ (~ HasBuild p -> sp_docker b = sp_docker a).
Proof. exact grown. Qed.
Print Assumptions C119_grown.

Definition serialPipeline : Pipeline := with_steps samplePipeline [sampleBuild].
Definition usesApp : Container := container "use" "octocat/app:latest" None ["app"] [] [].
Definition lateBuild : Pipeline := with_steps samplePipeline [usesApp].
Definition specOfSteps (p : Pipeline) (more : list Container) : Spec :=
  specFrom sampleWorld defaultCompiler (set_steps p (pi_steps p ++ map Some more)).
(** A step that depends on another changes what services and earlier steps wait for. *)
Theorem C119_first_dependency_refuted : exists w c p q more n a b, Standard w c None false /\ Grown p more q /\
  Compiled w c p n a /\ Compiled w c q n b /\ (forall x, In (Some x) more -> ct_build x = None) /\ ~ Extends (length more) a b /\
  map st_depends (sp_steps a) = [[]; []; []] /\ map st_depends (sp_steps b) = [[]; ["clone"]; ["clone"]; ["build"; "clone"]].
Proof.
  exists sampleWorld, defaultCompiler, serialPipeline, (set_steps serialPipeline (pi_steps serialPipeline ++ map Some [sampleTest])),
    (map Some [sampleTest]), 0, (specFrom sampleWorld defaultCompiler serialPipeline), (specOfSteps serialPipeline [sampleTest]).
  split; [repeat split|]. split; [repeat split|]. split; [eexists; vm_compute; reflexivity|]. split; [eexists; vm_compute; reflexivity|].
  split; [intros x [H|[]]; injection H as <-; reflexivity|]. split; [|vm_compute; split; reflexivity].
  intros (_ & _ & _ & (s & H & _) & _). apply (f_equal (map st_depends)) in H. rewrite map_app in H. revert H. vm_compute. discriminate.
Qed.
Print Assumptions C119_first_dependency_refuted.
(** A step that builds an image changes the image of earlier steps. *)
Theorem C119_late_build_refuted : exists w c p q more n a b, Standard w c None false /\ Grown p more q /\
  Compiled w c p n a /\ Compiled w c q n b /\ (Parallel p <-> Parallel q) /\ ~ Extends (length more) a b /\
  exists s t, In s (sp_steps a) /\ In t (sp_steps b) /\ stepName s = "use" /\ stepName t = "use" /\
    ds_image (st_docker s) = "docker.io/octocat/app:latest" /\ ds_image (st_docker t) <> ds_image (st_docker s).
Proof.
  exists sampleWorld, defaultCompiler, lateBuild, (set_steps lateBuild (pi_steps lateBuild ++ map Some [publish])),
    (map Some [publish]), 0, (specFrom sampleWorld defaultCompiler lateBuild), (specOfSteps lateBuild [publish]).
  split; [repeat split|]. split; [repeat split|]. split; [eexists; vm_compute; reflexivity|]. split; [eexists; vm_compute; reflexivity|].
  split; [split; intros (x & H & D); cbn in H; intuition; subst x; exfalso; apply D; reflexivity|]. split.
  - intros (_ & _ & _ & (s & H & _) & _). apply (f_equal (map (fun s => ds_image (st_docker s)))) in H. rewrite map_app in H. revert H. vm_compute. discriminate.
  - exists (nth 2 (sp_steps (specFrom sampleWorld defaultCompiler lateBuild)) noStep), (nth 2 (sp_steps (specOfSteps lateBuild [publish])) noStep).
    split; [apply nth_In; vm_compute; auto|]. split; [apply nth_In; vm_compute; auto|]. vm_compute. repeat split. discriminate.
Qed.
Print Assumptions C119_late_build_refuted.
(** Two steps after the last one, the second of which uses an image built before. *)
Example C119_case :
  Extends 2 (specFrom sampleWorld defaultCompiler buildPipeline) (specOfSteps buildPipeline [sampleTest; usesApp]) /\
  SameVolumes (specFrom sampleWorld defaultCompiler buildPipeline) (specOfSteps buildPipeline [sampleTest; usesApp]) /\
  map stepName (sp_steps (specOfSteps buildPipeline [sampleTest; usesApp])) = ["clone"; "db"; "build"; "publish"; "use"; "test"; "use"] /\
  length (sp_files (specOfSteps buildPipeline [sampleTest; usesApp])) = 5.
Proof.
  assert (G : Grown buildPipeline (map Some [sampleTest; usesApp]) (set_steps buildPipeline (pi_steps buildPipeline ++ map Some [sampleTest; usesApp])))
    by repeat split.
  destruct (grown sampleWorld defaultCompiler None false (defaultCompiler_Standard _) _ _ _ 0
    (specFrom sampleWorld defaultCompiler buildPipeline) (specOfSteps buildPipeline [sampleTest; usesApp]) G) as (A & B & _).
  - eexists. vm_compute. reflexivity.
  - eexists. vm_compute. reflexivity.
  - intros x [H|[H|[]]]; injection H as <-; reflexivity.
  - split; intros _; exists useBuilt; (split; [cbn; auto|discriminate]).
  - split; [exact A|]. split; [exact B|]. split; vm_compute; reflexivity.
Qed.
(** Another trigger, limit and dependencies make no difference to what is compiled. *)
Example C119_unread_case : forall c n, let p := samplePipeline in
  compileIn sampleWorld c {| pi_version := "1"; pi_kind := pi_kind p; pi_type := pi_type p; pi_name := pi_name p; pi_clone := pi_clone p;
    pi_concurrency := 3; pi_depends := ["other"]; pi_node := [("gpu", "yes")]; pi_platform := pi_platform p;
    pi_pull_secrets := ["auth"]; pi_services := pi_services p; pi_steps := pi_steps p; pi_trigger := noConds;
    pi_volumes := pi_volumes p; pi_workspace := pi_workspace p |} n = compileIn sampleWorld c p n.
Proof. intros. apply unread; repeat split. Qed.
