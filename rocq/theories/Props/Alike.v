(** * Alike.v: theorem C120. *)
From Verif Require Import Model.Go Model.Types Model.Engine Model.Compiler Spec.CompileSpec Spec.AlikeSpec Proofs.Alike
  Conform.Pipelines Conform.Worlds.

(** ** C120 *)
Theorem C120_alike : forall w c hostDir hostMount, Standard w c hostDir hostMount -> OrderOk w -> forall p q n m a b, SamePlace p q ->
  Compiled w c p n a -> Compiled w c q m b -> forall i j o s t,
  nth_error (origins p) i = Some o -> nth_error (origins q) j = Some o -> ~ IsBuild o ->
  nth_error (sp_steps a) i = Some s -> nth_error (sp_steps b) j = Some t ->
  AlikeButImage s t /\ (~ HasBuild p -> ~ HasBuild q -> Alike s t).
Proof. exact alike_image. Qed.
Print Assumptions C120_alike.
Theorem C120_build : forall w c hostDir hostMount, Standard w c hostDir hostMount -> OrderOk w -> forall p q n m a b, SamePlace p q ->
  Compiled w c p n a -> Compiled w c q m b -> forall i j o s t,
  nth_error (origins p) i = Some o -> nth_error (origins q) j = Some o -> IsBuild o ->
  nth_error (sp_steps a) i = Some s -> nth_error (sp_steps b) j = Some t -> AlikeBuild s t.
Proof. exact alike_build. Qed.
Print Assumptions C120_build.

Definition shorter : Pipeline := with_steps (without_services samplePipeline) [sampleTest].
Definition noPublish : Pipeline := with_steps samplePipeline [useBuilt; sampleBuild].
Notation compiled p := (specFrom sampleWorld defaultCompiler p).
Notation step k p := (nth k (sp_steps (compiled p)) noStep).
(** Another step that builds the image makes a difference. *)
Theorem C120_image_refuted : exists w c p q n a b i j o s t, Standard w c None false /\ OrderOk w /\ SamePlace p q /\
  Compiled w c p n a /\ Compiled w c q n b /\ nth_error (origins p) i = Some o /\ nth_error (origins q) j = Some o /\ ~ IsBuild o /\
  nth_error (sp_steps a) i = Some s /\ nth_error (sp_steps b) j = Some t /\ ~ Alike s t.
Proof.
  exists sampleWorld, defaultCompiler, buildPipeline, noPublish, 0, (compiled buildPipeline), (compiled noPublish), 4, 2,
    (FromStep useBuilt), (step 4 buildPipeline), (step 2 noPublish).
  split; [apply defaultCompiler_Standard|]. split; [exact sampleWorld_order|].
  split; [repeat split; intros _; exists useBuilt; (split; [cbn; auto|discriminate])|].
  split; [eexists; vm_compute; reflexivity|]. split; [eexists; vm_compute; reflexivity|]. split; [reflexivity|]. split; [reflexivity|].
  split; [intros (x & b & E & B); injection E as <-; discriminate|].
  split; [vm_compute; reflexivity|]. split; [vm_compute; reflexivity|].
  intros [_ E]. revert E. vm_compute. discriminate.
Qed.
Print Assumptions C120_image_refuted.
(** The step test of two pipelines, and a build step. *)
Example C120_case : Alike (step 3 samplePipeline) (step 1 shorter) /\ stepName (step 1 shorter) = "test" /\
  md_uid (st_meta (step 3 samplePipeline)) <> md_uid (st_meta (step 1 shorter)) /\
  AlikeBuild (step 3 buildPipeline) (step 1 (with_steps (without_services samplePipeline) [publish; useBuilt])) /\
  AlikeButImage (step 4 buildPipeline) (step 2 noPublish).
Proof.
  split; [|split; [vm_compute; reflexivity|split; [vm_compute; discriminate|]]].
  - refine (proj2 (alike_image sampleWorld defaultCompiler None false (defaultCompiler_Standard _) sampleWorld_order samplePipeline shorter 0 0
      (compiled samplePipeline) (compiled shorter) _ _ _ 3 1 (FromStep sampleTest) _ _ _ _ _ _ _) _ _).
    + repeat split; intros _; exists sampleTest; (split; [cbn; auto|discriminate]).
    + eexists. vm_compute. reflexivity.
    + eexists. vm_compute. reflexivity.
    + reflexivity.
    + reflexivity.
    + intros (x & b & E & B). injection E as <-. discriminate.
    + vm_compute. reflexivity.
    + vm_compute. reflexivity.
    + intros (x & b & [<-|[<-|[]]] & B); discriminate.
    + intros (x & b & [<-|[]] & B); discriminate.
  - split.
    + refine (alike_build sampleWorld defaultCompiler None false (defaultCompiler_Standard _) sampleWorld_order buildPipeline
        (with_steps (without_services samplePipeline) [publish; useBuilt]) 0 0
        (compiled buildPipeline) (compiled (with_steps (without_services samplePipeline) [publish; useBuilt])) _ _ _ 3 1 (FromStep publish) _ _ _ _ _ _ _).
      * repeat split; intros _; exists useBuilt; (split; [cbn; auto|discriminate]).
      * eexists. vm_compute. reflexivity.
      * eexists. vm_compute. reflexivity.
      * reflexivity.
      * reflexivity.
      * exists publish. eexists. split; reflexivity.
      * vm_compute. reflexivity.
      * vm_compute. reflexivity.
    + refine (proj1 (alike_image sampleWorld defaultCompiler None false (defaultCompiler_Standard _) sampleWorld_order buildPipeline noPublish 0 0
        (compiled buildPipeline) (compiled noPublish) _ _ _ 4 2 (FromStep useBuilt) _ _ _ _ _ _ _)).
      * repeat split; intros _; exists useBuilt; (split; [cbn; auto|discriminate]).
      * eexists. vm_compute. reflexivity.
      * eexists. vm_compute. reflexivity.
      * reflexivity.
      * reflexivity.
      * intros (x & b & E & B). injection E as <-. discriminate.
      * vm_compute. reflexivity.
      * vm_compute. reflexivity.
Qed.
