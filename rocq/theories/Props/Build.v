(** * Build.v: theorem C123. *)
From Verif Require Import Model.Go Model.Types Model.Engine Model.Compiler Model.Main Spec.CompileSpec Spec.MainSpec Spec.BuildSpec
  Proofs.BuildFlags Conform.CredentialCases Conform.BuildCases.

(** ** C123 *)
Theorem C123_command : forall mc, Orders mc -> forall fl fl' name clone f fs, SameButBuild fl fl' ->
  let x := run mc (ACompile name clone fl f) fs in
  let y := run mc (ACompile name clone fl' f) fs in
  x_status x = x_status y /\ x_stderr x = x_stderr y /\ x_files x = x_files y /\
  (x_status x <> 0%Z -> x_stdout x = x_stdout y) /\
  (x_status x = 0%Z -> exists s s', x_stdout x = mc_specJSON mc s /\ x_stdout y = mc_specJSON mc s' /\ anyBuild s = anyBuild s').
Proof. exact command_builds. Qed.
Print Assumptions C123_command.
Theorem C123_skip : forall w c c' hostDir hostMount, Standard w c hostDir hostMount -> Standard w c' hostDir hostMount ->
  co_privileged c = co_privileged c' -> co_git c = co_git c' ->
  forall p n a b, Compiled w c p n a -> Compiled w c' p n b ->
    sp_meta a = sp_meta b /\ sp_platform a = sp_platform b /\ sp_docker a = sp_docker b /\ sp_files a = sp_files b /\
    sp_secrets a = sp_secrets b /\ Forall2 SameButSkipped (sp_steps a) (sp_steps b).
Proof. exact skip_only. Qed.
Print Assumptions C123_skip.
Example C123_case : Orders (printWith printBuild) /\ SameButBuild (buildFlags "push" "refs/heads/master") (buildFlags "tag" "refs/tags/v1") /\
  x_status (buildRun (buildFlags "push" "refs/heads/master")) = 0%Z /\
  x_stdout (buildRun (buildFlags "push" "refs/heads/master")) <> x_stdout (buildRun (buildFlags "tag" "refs/tags/v1")).
Proof. exact (conj build_orders (conj builds_differ (conj (proj1 push_run) build_outputs))). Qed.
