(** * Formatted.v: theorem C105. *)
From Verif Require Import Model.Go Model.Types Model.RawParse Model.Decode Model.Lint Model.Pretty Model.Compiler Model.Main
  Spec.LintSpec Spec.ParseSpec Spec.YamlSpec Spec.PrettySpec Spec.CompileSpec Spec.MainSpec
  Proofs.PrettyMore Proofs.PrettyClaims Proofs.LintFormat Conform.Machines.

(** ** C105 *)
Theorem C105_same_verdicts : forall isPrintHigh formatFloat sprintFloat bytesSize resolve ramInBytes reader, Resolver resolve -> Reads resolve reader ->
  forall m, mf_resources m <> [] -> Forall (Formattable resolve ramInBytes formatFloat bytesSize) (mf_resources m) ->
  forall out, print isPrintHigh formatFloat sprintFloat bytesSize m = Ok out ->
  (forall lines, ParseSpec.Lines out lines -> Forall ParseSpec.Short lines) ->
  exists m', parse (treeDecoder ramInBytes reader) out = Ok m' /\
    Forall2 (fun r r' => forall trusted, Lint r' trusted = Lint r trusted) (mf_resources m) (mf_resources m') /\
    forall trusted, lintManifest m' trusted = lintManifest m trusted.
Proof. exact lint_formatted. Qed.
Print Assumptions C105_same_verdicts.
Theorem C105_command : forall mc resolve ramInBytes reader p f fs content m out trusted,
  mc_decoder mc = treeDecoder ramInBytes reader -> Resolver resolve -> Reads resolve reader -> mc_writable mc f = true ->
  fs f = Some content -> parse (mc_decoder mc) content = Ok m -> mf_resources m <> [] ->
  Forall (Formattable resolve ramInBytes (w_formatFloat (mc_world mc)) (mc_bytesSize mc)) (mf_resources m) ->
  formatted mc m = Ok out -> (forall lines, ParseSpec.Lines out lines -> Forall ParseSpec.Short lines) ->
  let before := run mc (ALint trusted f) fs in
  let after := run mc (ALint trusted f) (x_files (run mc (AFormat p true f) fs)) in
  x_status after = x_status before /\ x_stdout after = x_stdout before /\ x_stderr after = x_stderr before.
Proof. exact format_then_lint. Qed.
Print Assumptions C105_command.
(** Not of every file: formatting drops an empty build section, and with it the complaint. *)
Theorem C105_every_file_refuted : exists mc f fs,
  let x := run mc (AFormat false true f) fs in
  x_status x = 0%Z /\ x_status (run mc (ALint false f) fs) = 1%Z /\
  x_stderr (run mc (ALint false f) fs) = mc_fatal mc "linter: invalid or missing build image" /\
  x_status (run mc (ALint false f) (x_files x)) = 0%Z.
Proof. exists sampleMachine, "a.yml", (oneFile "a.yml" emptyBuildFile). vm_compute. repeat split; reflexivity. Qed.
Print Assumptions C105_every_file_refuted.
Example C105_case : Forall (Formattable plainResolve noSize noFloat noBytes) (mf_resources sampleManifest) /\
  parse (mc_decoder sampleMachine) sampleText = Ok sampleManifest /\
  x_status (run sampleMachine (ALint false "a.yml") (oneFile "a.yml" sampleText)) = 0%Z /\
  x_files (run sampleMachine (AFormat false true "a.yml") (oneFile "a.yml" sampleText)) "a.yml" <> Some sampleText /\
  (let x := run sampleMachine (AFormat false true "a.yml") (oneFile "a.yml" badFile) in
   x_status x = 0%Z /\ x_files x "a.yml" <> Some badFile /\
   x_stderr (run sampleMachine (ALint false "a.yml") (x_files x)) = mc_fatal sampleMachine "linter: duplicate step names" /\
   x_stderr (run sampleMachine (ALint false "a.yml") (oneFile "a.yml" badFile)) = mc_fatal sampleMachine "linter: duplicate step names").
Proof.
  split; [exact sample_formattable|]. split; [vm_compute; reflexivity|]. split; [vm_compute; reflexivity|]. split; [vm_compute; discriminate|].
  cbv zeta. split; [vm_compute; reflexivity|]. split; [vm_compute; discriminate|]. split; vm_compute; reflexivity.
Qed.
