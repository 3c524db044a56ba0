(** * LegacyRun.v: theorem C109. *)
From Verif Require Import Model.Go Model.Types Model.RawParse Model.Decode Model.Engine Model.Pretty Model.Convert Model.Legacy Model.Compiler Model.Main
  Spec.ParseSpec Spec.YamlSpec Spec.PrettySpec Spec.LegacySpec Spec.ConvertedSpec Spec.ConverterSpec Spec.CompileSpec Spec.MainSpec Spec.ReorderSpec Spec.LegacyRunSpec
  Proofs.PrettyMore Proofs.PrettyClaims Proofs.ConverterFacts Proofs.LegacyRun Proofs.LegacyMain
  Conform.Pipelines Conform.Worlds Conform.LegacyCases Conform.Machines Conform.ConvertCases.

(** ** C109 *)
Theorem C109_runs : forall w c hostDir hostMount, OrderOk w -> Standard w c hostDir hostMount ->
  forall getenv parseURL g remote n, CompleteConfig g ->
  exists p, toPipeline getenv parseURL g remote = Ok p /\
  forall (clone : bool) q, (if clone then q = p else WithoutClone p q) ->
  exists spec, Compiled w c q n spec /\ RightRunNames clone getenv g spec /\
    Forall2 (RunsAs w c g q hostMount spec) (runs clone getenv g) (sp_steps spec).
Proof. exact legacy_runs. Qed.
Print Assumptions C109_runs.
Theorem C109_commands : forall mc resolve ramInBytes reader getenv parseURL isPrintHigh marshal unmarshal ordM ordA formatFloat formatKey read expand,
  mc_decoder mc = treeDecoder ramInBytes reader -> Resolver resolve -> Reads resolve reader ->
  mc_legacy mc = Convert getenv parseURL isPrintHigh marshal unmarshal ordM ordA formatFloat formatKey read expand (formatted mc) ->
  OrderOk (mc_world mc) -> OrderedJSON (w_toJSON (mc_world mc)) -> Orders mc ->
  forall f addr fs content n g, fs f = Some content ->
  f <> "bitbucket-pipelines.yml" -> f <> ".gitlab-ci.yml" -> HasPipelineLine content ->
  (forall a b, content <> (a +++ "<<:" +++ b)%string) -> read content = Some n ->
  decLConfig formatFloat formatKey n = Some g ->
  CompleteConfig g -> AllClear g -> lg_matrix g = VNull ->
  (forall m, toManifest getenv parseURL isPrintHigh marshal unmarshal ordM ordA n g addr = Ok m ->
     Forall (Formattable resolve ramInBytes (w_formatFloat (mc_world mc)) (mc_bytesSize mc)) (mf_resources m)) ->
  forall save, let x := run mc (AConvert save addr f) fs in
  (forall lines, ParseSpec.Lines (x_stderr x) lines -> Forall ParseSpec.Short lines) ->
  x_status x = 0%Z /\
  forall f' fs' name clone fl auths, fs' f' = Some (x_stderr x) -> name = "" \/ name = "default" ->
    NoDup (mkeys (cf_env fl)) -> NoDup (mkeys (cf_label fl)) -> Forall2 RegistryOf (cf_registry fl) auths ->
    let y := run mc (ACompile name clone fl f') fs' in
    x_status y = 0%Z /\
    exists p q c base spec, toPipeline getenv parseURL g addr = Ok p /\ (if clone then q = p else WithoutClone p q) /\
      CommandCompiler mc fl c /\ RightRunNames clone getenv g base /\
      Forall2 (RunsAs (mc_world mc) c g q false base) (runs clone getenv g) (sp_steps base) /\
      Finished mc fl auths base spec /\ x_stdout y = mc_specJSON mc spec.
Proof. exact convert_then_compile. Qed.
Print Assumptions C109_commands.
(** A container that was allowed to fail, on a device of the host. *)
Definition lenient : LContainer :=
  {| lc_command := []; lc_commands := ["make"]; lc_detached := false; lc_devices := ["/dev/kvm:/dev/kvm"]; lc_err_ignore := true;
     lc_tmpfs := []; lc_dns := []; lc_dns_search := []; lc_entrypoint := []; lc_environment := [];
     lc_extra_hosts := []; lc_image := "golang"; lc_name := "try"; lc_privileged := false; lc_pull := true;
     lc_shell := ""; lc_volumes := [tmp]; lc_secrets := [Some {| ls_source := "tok"; ls_target := "token" |}];
     lc_constraints := noLConstraints; lc_vargs := [("repo", VStr "a/b")] |}.
Definition lenientConfig : LConfig := config [] [lenient] [plain "db" [] [] []] [].
Definition lenientPipeline : Pipeline := Eval vm_compute in
  match toPipeline noEnv someURL lenientConfig "" with Ok p => p | _ => PrettyClaims.samplePipeline end.
Definition lenientSpec : Engine.Spec := specFrom sampleWorld defaultCompiler lenientPipeline.
Theorem C109_failure_refuted : exists w c g p spec l s, OrderOk w /\ Default c /\ CompleteConfig g /\ toPipeline noEnv someURL g "" = Ok p /\
  Compiled w c p 0 spec /\ In (OfStep l, s) (combine (runs true noEnv g) (sp_steps spec)) /\
  lc_err_ignore l = true /\ st_ignore_err s = false /\ lc_devices l <> [] /\ st_devices s = [].
Proof.
  exists sampleWorld, defaultCompiler, lenientConfig, lenientPipeline, lenientSpec, lenient, (nth 2 (sp_steps lenientSpec) noStep).
  split; [exact sampleWorld_order|]. split; [repeat split|].
  split; [intros c H; cbn in H; unfold LegacySpec.Complete; intuition (subst; cbn in *; intuition discriminate)|].
  split; [vm_compute; reflexivity|]. split; [eexists; vm_compute; reflexivity|].
  split; [vm_compute; right; right; left; reflexivity|]. split; [reflexivity|]. split; [vm_compute; reflexivity|]. split; [discriminate|vm_compute; reflexivity].
Qed.
Print Assumptions C109_failure_refuted.
Example C109_case : AllClear lenientConfig /\ AllClear oldConfig /\
  map (fun s => (stepName s, st_detach s, ds_image (st_docker s))) (sp_steps lenientSpec) =
    [("clone", false, "docker.io/drone/git:latest"); ("db", true, "docker.io/library/golang:latest"); ("try", false, "docker.io/library/golang:latest")] /\
  map st_secrets (sp_steps lenientSpec) = [[]; []; [{| sv_name := "tok"; sv_env := "TOKEN" |}]] /\
  map (fun s => map mo_path (st_volumes s)) (sp_steps lenientSpec) = [["/drone/src"]; ["/drone/src"]; ["/data"; "/drone/src"]] /\
  (let x := run convertMachine (AConvert false "https://github.com/a/b" ".drone.yml") (oneFile ".drone.yml" oldFile) in
   let y := run convertMachine (ACompile "" false (withEnv [] "a1b2c3") ".drone.yml") (oneFile ".drone.yml" (x_stderr x)) in
   x_status x = 0%Z /\ x_status y = 0%Z /\ x_stdout y = "database:a1b2c3;build:a1b2c3;publish:a1b2c3").
Proof.
  assert (N : forall A (x : A), NoDup [x]) by (intros; constructor; [intros []|constructor]).
  split; [repeat constructor; cbn; try (apply N); intros []|].
  split; [vm_compute; repeat constructor; cbn; try (apply N); intros []|].
  split; [vm_compute; reflexivity|]. split; [vm_compute; reflexivity|]. split; [vm_compute; reflexivity|].
  cbv zeta. split; [vm_compute; reflexivity|]. split; vm_compute; reflexivity.
Qed.
