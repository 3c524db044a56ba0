(** * Credential.v: theorem C122. *)
From Verif Require Import Model.Go Model.Types Model.Engine Model.Compiler Model.Main Spec.CompileSpec Spec.MainSpec Spec.CredentialSpec
  Proofs.Credential Conform.Machines Conform.CredentialCases.

(** ** C122 *)
Theorem C122_command : forall mc fl fl' name clone f fs, SameButCredentials fl fl' ->
  let x := run mc (ACompile name clone fl f) fs in
  let y := run mc (ACompile name clone fl' f) fs in
  x_status x = x_status y /\ x_stderr x = x_stderr y /\ x_files x = x_files y /\
  (x_status x <> 0%Z -> x_stdout x = x_stdout y) /\
  (x_status x = 0%Z -> exists s s', x_stdout x = mc_specJSON mc s /\ x_stdout y = mc_specJSON mc s' /\ hide s = hide s').
Proof. exact command_credentials. Qed.
Print Assumptions C122_command.
Theorem C122_git : forall w c c' hostDir hostMount, Standard w c hostDir hostMount -> Standard w c' hostDir hostMount ->
  co_privileged c = co_privileged c' -> co_skip c = co_skip c' -> isEmpty (gitCredentials c) = isEmpty (gitCredentials c') ->
  forall p n a b, Compiled w c p n a -> Compiled w c' p n b ->
    sp_meta a = sp_meta b /\ sp_platform a = sp_platform b /\ sp_docker a = sp_docker b /\ sp_secrets a = sp_secrets b /\
    sp_steps a = sp_steps b /\ map hideFile (sp_files a) = map hideFile (sp_files b).
Proof. exact git_only. Qed.
Print Assumptions C122_git.
(** Whether there is a password shows elsewhere: without one no step is told the machine either. *)
Theorem C122_present_refuted : exists print registry secret git, (forall s s', hide s = hide s' -> mc_specJSON (printWith print) s = mc_specJSON (printWith print) s') /\
  x_stdout (credentialRun print (credentialFlags registry secret git "p1")) <> x_stdout (credentialRun print (credentialFlags registry secret git "")).
Proof.
  exists (fun s => printAll (hide s)), "r1", "s1", "g1". exact (conj hidden_prints hidden_differ).
Qed.
Print Assumptions C122_present_refuted.
Example C122_case : SameButCredentials (credentialFlags "r1" "s1" "g1" "p1") (credentialFlags "r2" "s2" "g2" "p2") /\
  x_status (credentialRun printAll (credentialFlags "r1" "s1" "g1" "p1")) = 0%Z /\
  x_stdout (credentialRun printAll (credentialFlags "r1" "s1" "g1" "p1")) <> x_stdout (credentialRun printAll (credentialFlags "r2" "s2" "g2" "p2")).
Proof. exact (conj flags_differ (conj (proj1 first_run) runs_differ)). Qed.
