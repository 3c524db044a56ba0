(** * Converted.v: theorem C106. *)
From Verif Require Import Model.Go Model.Types Model.RawParse Model.Decode Model.Lint Model.Pretty Model.Convert Model.Legacy Model.Main
  Spec.ParseSpec Spec.YamlSpec Spec.PrettySpec Spec.CompileSpec Spec.MainSpec Spec.ConverterSpec Spec.LegacySpec Spec.ConvertedSpec
  Proofs.PrettyMore Proofs.PrettyClaims Proofs.LegacyLint Proofs.ConvertLint Proofs.ConverterFacts Conform.LegacyCases Conform.Machines Conform.ConvertCases.

(** ** C106 *)
Theorem C106_pipeline : forall getenv parseURL g remote p trusted, toPipeline getenv parseURL g remote = Ok p ->
  (Lint (RPipeline p) trusted = Ok tt <-> GoodLegacy getenv trusted g).
Proof. exact lint_converted_pipeline. Qed.
Print Assumptions C106_pipeline.
Theorem C106_manifest : forall getenv parseURL isPrintHigh marshal unmarshal ordM ordA n g remote m trusted,
  CompleteConfig g -> lg_matrix g = VNull -> NoDup (mkeys (lg_secrets g)) ->
  (forall k d, In (k, d) (lg_secrets g) -> NoDup (mkeys (ld_opts d))) ->
  toManifest getenv parseURL isPrintHigh marshal unmarshal ordM ordA n g remote = Ok m ->
  (Forall (fun r => Lint r trusted = Ok tt) (mf_resources m) <->
   GoodLegacy getenv trusted g /\ forall k d, In (k, d) (lg_secrets g) -> GoodLegacySecret d).
Proof. exact lint_converted_manifest. Qed.
Print Assumptions C106_manifest.
Theorem C106_distinct_names : forall getenv parseURL g remote p, toPipeline getenv parseURL g remote = Ok p ->
  Forall Named (lg_clone g ++ lg_pipeline g ++ lg_services g) ->
  NoDup ("clone" :: map lc_name (lg_clone g ++ lg_pipeline g ++ lg_services g)) -> Lint (RPipeline p) true = Ok tt.
Proof. exact distinct_accepted. Qed.
Print Assumptions C106_distinct_names.
Theorem C106_commands : forall mc resolve ramInBytes reader getenv parseURL isPrintHigh marshal unmarshal ordM ordA formatFloat formatKey read expand,
  mc_decoder mc = treeDecoder ramInBytes reader -> Resolver resolve -> Reads resolve reader ->
  mc_legacy mc = Convert getenv parseURL isPrintHigh marshal unmarshal ordM ordA formatFloat formatKey read expand (formatted mc) ->
  forall f addr fs content n g, fs f = Some content ->
  f <> "bitbucket-pipelines.yml" -> f <> ".gitlab-ci.yml" -> HasPipelineLine content ->
  (forall a b, content <> (a +++ "<<:" +++ b)%string) -> read content = Some n ->
  decLConfig formatFloat formatKey n = Some g ->
  CompleteConfig g -> lg_matrix g = VNull -> NoDup (mkeys (lg_secrets g)) ->
  (forall k d, In (k, d) (lg_secrets g) -> NoDup (mkeys (ld_opts d))) ->
  (forall m, toManifest getenv parseURL isPrintHigh marshal unmarshal ordM ordA n g addr = Ok m ->
     Forall (Formattable resolve ramInBytes (w_formatFloat (mc_world mc)) (mc_bytesSize mc)) (mf_resources m)) ->
  forall save, let x := run mc (AConvert save addr f) fs in
  (forall lines, ParseSpec.Lines (x_stderr x) lines -> Forall ParseSpec.Short lines) ->
  x_status x = 0%Z /\
  forall f' fs' trusted, fs' f' = Some (x_stderr x) ->
    (x_status (run mc (ALint trusted f') fs') = 0%Z <->
     GoodLegacy getenv trusted g /\ forall k d, In (k, d) (lg_secrets g) -> GoodLegacySecret d).
Proof. exact convert_then_lint. Qed.
Print Assumptions C106_commands.
(** A file with distinct names can be refused: one of them may be that of the clone step. *)
Theorem C106_every_file_refuted : exists mc f fs fs',
  let x := run mc (AConvert false "" f) fs in
  x_status x = 0%Z /\ fs' f = Some (x_stderr x) /\ x_status (run mc (ALint true f) fs') = 1%Z /\
  x_stderr (run mc (ALint true f) fs') = mc_fatal mc "linter: duplicate step names".
Proof.
  exists convertMachine, ".drone.yml", (oneFile ".drone.yml" cloneFile),
    (oneFile ".drone.yml" (x_stderr (run convertMachine (AConvert false "" ".drone.yml") (oneFile ".drone.yml" cloneFile)))).
  cbv zeta. split; [vm_compute; reflexivity|]. split; [reflexivity|]. split; vm_compute; reflexivity.
Qed.
Print Assumptions C106_every_file_refuted.
Example C106_case : HasPipelineLine oldFile /\ CompleteConfig oldConfig /\ GoodLegacy noEnv false oldConfig /\
  (exists n, readSample oldFile = Some n /\ decLConfig noFloat (fun _ => "?") n = Some oldConfig) /\
  Forall (Formattable plainResolve noSize noFloat noBytes) (mf_resources oldManifest) /\
  (let x := run convertMachine (AConvert false "https://github.com/a/b" ".drone.yml") (oneFile ".drone.yml" oldFile) in
   x_status x = 0%Z /\ formatted convertMachine oldManifest = Ok (x_stderr x) /\
   x_status (run convertMachine (ALint false ".drone.yml") (oneFile ".drone.yml" (x_stderr x))) = 0%Z).
Proof.
  split; [apply legacyMatch_lines; vm_compute; reflexivity|].
  split; [intros c H; cbn in H; unfold Complete; intuition (subst; cbn in *; intuition discriminate)|].
  split.
  { apply (lint_converted_pipeline noEnv someURL oldConfig ""
      match toPipeline noEnv someURL oldConfig "" with Ok p => p | _ => match mf_resources oldManifest with RPipeline p :: _ => p | _ => PrettyClaims.samplePipeline end end);
    vm_compute; reflexivity. }
  split; [eexists; split; vm_compute; reflexivity|].
  split.
  { constructor; [|constructor]. cbn [Formattable]. constructor; cbn -[In]; ok; constructor; cbn -[In Z.le]; ok. }
  cbv zeta. split; [vm_compute; reflexivity|]. split; vm_compute; reflexivity.
Qed.
