(** * Rules.v: theorem C118. *)
From Verif Require Import Model.Go Model.Types Model.RawParse Model.Lint Model.Main Spec.LintSpec Spec.MainSpec Spec.RuleSpec
  Proofs.PrettyClaims Proofs.Rules Conform.Pipelines Conform.Machines Conform.CrashCases.

(** ** C118 *)
Theorem C118_lint : forall trusted r,
  (Lint r trusted = Ok tt <-> NoneApplies (rules trusted r)) /\
  (forall e, Lint r trusted = Err e <-> First (rules trusted r) (Says e)) /\
  (Lint r trusted = Panic <-> First (rules trusted r) Crash).
Proof. exact lint_rules. Qed.
Print Assumptions C118_lint.
Theorem C118_manifest : forall m trusted,
  (lintManifest m trusted = Ok tt <-> NoneApplies (manifestRules [] (mf_resources m))) /\
  (forall e, lintManifest m trusted = Err e <-> First (manifestRules [] (mf_resources m)) (Says e)) /\
  lintManifest m trusted <> Panic.
Proof. exact manifest_rules. Qed.
Print Assumptions C118_manifest.
Theorem C118_command : forall mc trusted f fs s m, fs f = Some s -> parse (mc_decoder mc) s = Ok m ->
  let x := run mc (ALint trusted f) fs in let l := flat_map (rules trusted) (mf_resources m) in
  (x_status x = 0%Z <-> NoneApplies l) /\ (x_status x = 1%Z <-> exists e, First l (Says e)) /\ (x_status x = 2%Z <-> First l Crash) /\
  (forall e, First l (Says e) -> x_stderr x = mc_fatal mc e).
Proof. exact command_rules. Qed.
Print Assumptions C118_command.
(** Only one defect of a file is reported, so mending what is reported need not be enough. *)
Theorem C118_every_defect_reported_refuted : exists p steps services vols e e', NoNulls p steps services vols /\ e <> e' /\
  Problem false p steps services vols e /\ Problem false p steps services vols e' /\
  Lint (RPipeline p) false = Err e /\ ~ First (rules false (RPipeline p)) (Says e').
Proof.
  exists (with_steps samplePipeline [privileged sampleTest]), [privileged sampleTest], [sampleDb], [sampleVolume],
    "linter: untrusted repositories cannot enable privileged mode", "linter: invalid or unknown step dependency".
  split; [repeat split; repeat constructor; cbn; intuition discriminate|]. split; [discriminate|].
  split; [apply (P_container _ _ _ _ _ (privileged sampleTest)); [left; reflexivity|apply CP_privileged; reflexivity]|].
  split; [apply (P_missing _ _ _ _ _ [] (privileged sampleTest) [] "build"); cbn; auto; try discriminate; intros [H|[]]; discriminate|].
  split; [reflexivity|]. intro F. apply (proj2 (lint_rules _ _)) in F. discriminate.
Qed.
Print Assumptions C118_every_defect_reported_refuted.
Example C118_case :
  First (rules false (RPipeline (with_steps samplePipeline [privileged sampleTest]))) (Says "linter: untrusted repositories cannot enable privileged mode") /\
  First (rules true (RPipeline (with_steps samplePipeline [privileged sampleTest]))) (Says "linter: invalid or unknown step dependency") /\
  NoneApplies (rules false (RPipeline samplePipeline)) /\ First (rules true (RPipeline nullMount)) Crash /\
  First (manifestRules [] [RPipeline secondPipeline; RPipeline samplePipeline]) (Says "linter: invalid or unknown pipeline dependency") /\
  x_stderr (run sampleMachine (ALint false "a.yml") (oneFile "a.yml" badFile)) = ("error: linter: duplicate step names" +++ nl)%string.
Proof.
  split; [apply (proj2 (lint_rules _ _)); reflexivity|]. split; [apply (proj2 (lint_rules _ _)); reflexivity|].
  split; [apply (proj1 (lint_rules _ _)); reflexivity|]. split; [apply (proj2 (lint_rules _ _)); vm_compute; reflexivity|].
  split; [|vm_compute; reflexivity].
  apply (proj2 (manifest_rules {| mf_resources := [RPipeline secondPipeline; RPipeline samplePipeline] |} false)). reflexivity.
Qed.
