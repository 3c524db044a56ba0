(** * Order.v: theorem C115. *)
From Coq Require Import Sorting.Permutation.
From Verif Require Import Model.Go Model.Types Model.RawParse Model.Lint Model.Main Spec.LintSpec Spec.MainSpec Spec.OrderSpec
  Proofs.PrettyClaims Proofs.Order Conform.Pipelines Conform.Machines.

(** ** C115 *)
Theorem C115_can_be_ordered : forall trusted p steps services vols, NoNulls p steps services vols ->
  ((exists q, Reordered p q /\ Lint (RPipeline q) trusted = Ok tt) <-> Sound trusted p steps services vols).
Proof. exact can_be_ordered. Qed.
Print Assumptions C115_can_be_ordered.
Theorem C115_order_matters : forall trusted p q steps services vols, NoNulls p steps services vols -> Reordered p q -> Lint (RPipeline p) trusted = Ok tt ->
  forall steps', pi_steps q = map Some steps' -> (Lint (RPipeline q) trusted = Ok tt <-> DepsEarlier (cloneNames p) steps').
Proof. exact order_matters. Qed.
Print Assumptions C115_order_matters.
Theorem C115_manifest : forall rs trusted,
  ((exists rs', Permutation rs rs' /\ lintManifest {| mf_resources := rs' |} trusted = Ok tt) <-> SoundManifest (pipelinesOf rs)).
Proof. exact manifest_can_be_ordered. Qed.
Print Assumptions C115_manifest.
Theorem C115_command : forall mc trusted f fs fs' s t m m',
  fs f = Some s -> fs' f = Some t -> parse (mc_decoder mc) s = Ok m -> parse (mc_decoder mc) t = Ok m' ->
  Permutation (mf_resources m) (mf_resources m') ->
  (x_status (run mc (ALint trusted f) fs) = 0%Z <-> x_status (run mc (ALint trusted f) fs') = 0%Z).
Proof. exact lint_command_order. Qed.
Print Assumptions C115_command.
Theorem C115_compile : forall mc name clone fl f fs fs' s t m m',
  fs f = Some s -> fs' f = Some t -> parse (mc_decoder mc) s = Ok m -> parse (mc_decoder mc) t = Ok m' ->
  Permutation (mf_resources m) (mf_resources m') -> name <> "" -> NoDup (map pi_name (pipelinesOf (mf_resources m))) ->
  let x := run mc (ACompile name clone fl f) fs in let y := run mc (ACompile name clone fl f) fs' in
  x_status x = x_status y /\ x_stdout x = x_stdout y /\ x_stderr x = x_stderr y.
Proof. exact compile_command_order. Qed.
Print Assumptions C115_compile.
(** A graph without cycles and without missing steps is refused if it is written in the wrong order. *)
Theorem C115_acyclic_accepted_refuted : exists p steps services vols, NoNulls p steps services vols /\ Sound true p steps services vols /\
  Lint (RPipeline p) true = Err "linter: invalid or unknown step dependency".
Proof.
  exists (with_steps samplePipeline [sampleTest; sampleBuild]), [sampleTest; sampleBuild], [sampleDb], [sampleVolume].
  assert (N : NoNulls (with_steps samplePipeline [sampleTest; sampleBuild]) [sampleTest; sampleBuild] [sampleDb] [sampleVolume]).
  { repeat split; repeat constructor; cbn; intuition discriminate. }
  split; [exact N|]. split; [|reflexivity]. apply (can_be_ordered true _ _ _ _ N). exists samplePipeline. split; [|reflexivity].
  split; [apply perm_swap|]. do 3 (split; [reflexivity|]). reflexivity.
Qed.
Print Assumptions C115_acyclic_accepted_refuted.
Example C115_case : Reordered samplePipeline (with_steps samplePipeline [sampleTest; sampleBuild]) /\
  NoNulls samplePipeline [sampleBuild; sampleTest] [sampleDb] [sampleVolume] /\ Lint (RPipeline samplePipeline) false = Ok tt /\
  ~ DepsEarlier (cloneNames samplePipeline) [sampleTest; sampleBuild] /\ SoundManifest [secondPipeline; samplePipeline] /\
  lintManifest {| mf_resources := [RPipeline samplePipeline; RPipeline secondPipeline] |} false = Ok tt /\
  lintManifest {| mf_resources := [RPipeline secondPipeline; RPipeline samplePipeline] |} false = Err "linter: invalid or unknown pipeline dependency".
Proof.
  split; [split; [apply perm_swap|]; do 3 (split; [reflexivity|]); reflexivity|]. split; [exact samplePipeline_NoNulls|]. split; [reflexivity|].
  split.
  { intro H. destruct (H [] sampleTest [sampleBuild] "build" eq_refl) as [[K|[]]|[]]; [left; reflexivity|discriminate]. }
  split.
  { apply (manifest_can_be_ordered [RPipeline secondPipeline; RPipeline samplePipeline] false).
    exists [RPipeline samplePipeline; RPipeline secondPipeline]. split; [apply perm_swap|reflexivity]. }
  split; reflexivity.
Qed.
