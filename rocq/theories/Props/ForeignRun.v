(** * ForeignRun.v: theorem C110. *)
From Coq Require Import Sorting.Permutation.
From Verif Require Import Model.Go Model.Types Model.RawParse Model.Decode Model.Lint Model.Engine Model.Pretty Model.Convert Model.Gitlab Model.Bitbucket Model.Compiler Model.Main
  Spec.ParseSpec Spec.YamlSpec Spec.PrettySpec Spec.ConverterSpec Spec.CompileSpec Spec.MainSpec Spec.ForeignRunSpec
  Proofs.PrettyMore Proofs.PrettyClaims Proofs.ForeignRun Proofs.ForeignMain
  Conform.Pipelines Conform.Worlds Conform.Machines Conform.ConvertCases.

(** ** C110 *)
Theorem C110_gitlab_lint : forall available ord, (forall i m, Permutation m (ord i m)) ->
  forall g images js, gc_services g = map Some images -> gc_jobs g = ConverterSpec.present js -> NoDup (mkeys js) ->
  exists m, gitlabManifest available ord g = Ok m /\ forall trusted,
    (Forall (fun r => Lint r trusted = Ok tt) (mf_resources m) <->
     Forall (fun e => GoodJobs (map (gitlabJob g) (snd e)) (map (gitlabService available) images)) (gitlabPlan g js)) /\
    (lintManifest m trusted = Ok tt <-> NoDup (map fst (gitlabPlan g js))).
Proof. exact gitlab_lint. Qed.
Print Assumptions C110_gitlab_lint.
Theorem C110_gitlab_runs : forall available ord, (forall i m, Permutation m (ord i m)) ->
  forall w c hostDir hostMount, OrderOk w -> Standard w c hostDir hostMount ->
  forall g images js, gc_services g = map Some images -> gc_jobs g = ConverterSpec.present js -> NoDup (mkeys js) ->
  exists plan ps, gitlabManifest available ord g = Ok {| mf_resources := map RPipeline ps |} /\ SamePlan g (gitlabPlan g js) plan /\
    Forall2 (fun e p => pi_name p = fst e /\
      forall (clone : bool) q n, (if clone then q = p else WithoutClone p q) ->
      exists spec, Compiled w c q n spec /\
        RunsAll w c hostMount clone 0 (map (gitlabService available) images) (map (gitlabJob g) (snd e)) spec) plan ps.
Proof. exact gitlab_runs. Qed.
Print Assumptions C110_gitlab_runs.
Theorem C110_bitbucket : forall pathMatch ordT ordB ordS,
  (forall m, Permutation m (ordT m)) -> (forall m, Permutation m (ordB m)) -> (forall m, Permutation m (ordS m)) ->
  forall w co hostDir hostMount, OrderOk w -> Standard w co hostDir hostMount ->
  forall c ref l services, bc_services c = map (fun kv => (fst kv, Some (snd kv))) services ->
  pipelineFor pathMatch ordT ordB c ref = map Some l ->
  exists p, bitbucketManifest pathMatch ordT ordB ordS c ref = Ok {| mf_resources := [RPipeline p] |} /\
    (forall trusted, Lint (RPipeline p) trusted = Ok tt <-> GoodJobs (bitbucketJobs (bc_image c) l) (map bitbucketService services)) /\
    forall (clone : bool) q n, (if clone then q = p else WithoutClone p q) ->
    exists sel spec, Permutation sel services /\ Compiled w co q n spec /\
      RunsAll w co hostMount clone (bc_depth c) (map bitbucketService sel) (bitbucketJobs (bc_image c) l) spec.
Proof. exact bitbucket_worth. Qed.
Print Assumptions C110_bitbucket.
Theorem C110_gitlab_commands : forall mc resolve ramInBytes reader,
  mc_decoder mc = treeDecoder ramInBytes reader -> Resolver resolve -> Reads resolve reader -> OrderOk (mc_world mc) -> Orders mc ->
  forall available ord read, (forall i m, Permutation m (ord i m)) -> mc_gitlab mc = gitlabConvert available ord read (formatted mc) ->
  forall addr fs content n g images js, fs ".gitlab-ci.yml" = Some content -> read content = Some n -> decGConfig n = Some g ->
  gc_services g = map Some images -> gc_jobs g = ConverterSpec.present js -> NoDup (mkeys js) -> gitlabPlan g js <> [] ->
  (forall m, gitlabManifest available ord g = Ok m ->
     Forall (Formattable resolve ramInBytes (w_formatFloat (mc_world mc)) (mc_bytesSize mc)) (mf_resources m)) ->
  forall save, let x := run mc (AConvert save addr ".gitlab-ci.yml") fs in
  (forall lines, ParseSpec.Lines (x_stderr x) lines -> Forall ParseSpec.Short lines) ->
  x_status x = 0%Z /\
  (forall f' fs' trusted, fs' f' = Some (x_stderr x) ->
     (x_status (run mc (ALint trusted f') fs') = 0%Z <->
      Forall (fun e => GoodJobs (map (gitlabJob g) (snd e)) (map (gitlabService available) images)) (gitlabPlan g js))) /\
  exists plan, SamePlan g (gitlabPlan g js) plan /\
  forall f' fs' name clone fl auths e, fs' f' = Some (x_stderr x) -> Chosen name plan e ->
    NoDup (mkeys (cf_env fl)) -> NoDup (mkeys (cf_label fl)) -> Forall2 RegistryOf (cf_registry fl) auths ->
    CommandRuns mc clone fl auths 0 (map (gitlabService available) images) (map (gitlabJob g) (snd e)) (run mc (ACompile name clone fl f') fs').
Proof. exact gitlab_commands. Qed.
Print Assumptions C110_gitlab_commands.
Theorem C110_bitbucket_commands : forall mc resolve ramInBytes reader,
  mc_decoder mc = treeDecoder ramInBytes reader -> Resolver resolve -> Reads resolve reader -> OrderOk (mc_world mc) -> Orders mc ->
  forall pathMatch ordT ordB ordS read,
  (forall m, Permutation m (ordT m)) -> (forall m, Permutation m (ordB m)) -> (forall m, Permutation m (ordS m)) ->
  mc_bitbucket mc = bitbucketConvert pathMatch ordT ordB ordS read (formatted mc) ->
  forall addr fs content n c l services, fs "bitbucket-pipelines.yml" = Some content -> read content = Some n -> decBConfig n = Some c ->
  bc_services c = map (fun kv => (fst kv, Some (snd kv))) services -> pipelineFor pathMatch ordT ordB c "" = map Some l ->
  (forall m, bitbucketManifest pathMatch ordT ordB ordS c "" = Ok m ->
     Forall (Formattable resolve ramInBytes (w_formatFloat (mc_world mc)) (mc_bytesSize mc)) (mf_resources m)) ->
  forall save, let x := run mc (AConvert save addr "bitbucket-pipelines.yml") fs in
  (forall lines, ParseSpec.Lines (x_stderr x) lines -> Forall ParseSpec.Short lines) ->
  x_status x = 0%Z /\
  (forall f' fs' trusted, fs' f' = Some (x_stderr x) ->
     (x_status (run mc (ALint trusted f') fs') = 0%Z <-> GoodJobs (bitbucketJobs (bc_image c) l) (map bitbucketService services))) /\
  exists sel, Permutation sel services /\
  forall f' fs' name clone fl auths, fs' f' = Some (x_stderr x) -> name = "" \/ name = "default" ->
    NoDup (mkeys (cf_env fl)) -> NoDup (mkeys (cf_label fl)) -> Forall2 RegistryOf (cf_registry fl) auths ->
    CommandRuns mc clone fl auths (bc_depth c) (map bitbucketService sel) (bitbucketJobs (bc_image c) l) (run mc (ACompile name clone fl f') fs').
Proof. exact bitbucket_commands. Qed.
Print Assumptions C110_bitbucket_commands.

Definition anyImage (_ : string) : bool := false.
Definition asListed (_ : nat) (m : smap (option GJob)) : smap (option GJob) := m.
Definition asIs {A} (m : A) : A := m.
Definition foreignMachine : Machine :=
  {| mc_decoder := sampleDecoder; mc_mac := mc_mac sampleMachine;
     mc_bitbucket := bitbucketConvert (fun p s => Some (String.eqb p s)) asIs asIs asIs readSample (formatted sampleMachine);
     mc_gitlab := gitlabConvert anyImage asListed readSample (formatted sampleMachine);
     mc_legacy := mc_legacy sampleMachine;
     mc_world := mc_world sampleMachine; mc_sprintFloat := noFloat; mc_bytesSize := noBytes; mc_specJSON := mc_specJSON sampleMachine;
     mc_env := fun _ => ""; mc_envOrd := fun m => m; mc_proxyOrd := fun m => m; mc_labelOrd := fun _ m => m;
     mc_writable := fun _ => true; mc_fatal := mc_fatal sampleMachine; mc_trace := "panic" |}.
(** A job with variables and a service, for one branch, that may fail. *)
Definition gitlabText : string := "image: golang
stages:
- build
- test
before_script:
- go version
services:
- image/postgres
compile:
  stage: build
  script:
  - go build
unit:
  stage: test
  image: golang:11
  allow_failure: true
  variables:
    MODE: fast
  only:
  - master
  services:
  - redis
  script:
  - go test
".
Definition gitlabTree : node := Eval vm_compute in match readSample gitlabText with Some n => n | None => NNull end.
Definition gitlabRead : GConfig := Eval vm_compute in
  match decGConfig gitlabTree with Some g => g | None => emptyGConfig end.
Definition gitlabJobs : smap GJob := Eval vm_compute in
  flat_map (fun kv => match snd kv with Some j => [(fst kv, j)] | None => [] end) (gc_jobs gitlabRead).
Definition gitlabImages : list GImage := Eval vm_compute in
  flat_map (fun i => match i with Some x => [x] | None => [] end) (gc_services gitlabRead).
Definition gitlabPipelines : list Pipeline := Eval vm_compute in
  match gitlabManifest anyImage asListed gitlabRead with
  | Ok m => flat_map (fun r => match r with RPipeline p => [p] | _ => [] end) (mf_resources m) | _ => [] end.
Definition unitSpec : Engine.Spec := Eval vm_compute in specFrom sampleWorld defaultCompiler (nth 1 gitlabPipelines PrettyClaims.samplePipeline).
Definition bitbucketText : string := "image: node
clone:
  depth: 5
pipelines:
  default:
  - step:
      script:
      - npm test
  - step:
      name: publish
      image: node:9
      script:
      - npm publish
definitions:
  services:
    database:
      image: postgres
".
(** Variables, branches, services and allow_failure of a job are lost. *)
Theorem C110_variables_refuted : exists w c n g j p spec, readSample gitlabText = Some n /\ decGConfig n = Some g /\ In ("unit", Some j) (gc_jobs g) /\
  OrderOk w /\ Default c /\ (exists m, gitlabManifest anyImage asListed g = Ok m /\ In (RPipeline p) (mf_resources m)) /\ pi_name p = "test" /\
  Compiled w c p 0 spec /\
  In ("MODE", "fast") (gj_variables j) /\ (forall s, In s (sp_steps spec) -> envOf s "MODE" = None) /\
  gj_services j <> [] /\ map stepName (sp_steps spec) = ["clone"; "image__postgres"; "unit"] /\
  gj_only j = ["master"] /\ (forall st, In (Some st) (pi_steps p) -> ct_when st = noConds) /\
  (forall s, In s (sp_steps spec) -> st_ignore_err s = false).
Proof.
  exists sampleWorld, defaultCompiler, gitlabTree, gitlabRead, (snd (nth 1 gitlabJobs ("", emptyJob))), (nth 1 gitlabPipelines PrettyClaims.samplePipeline), unitSpec.
  split; [vm_compute; reflexivity|]. split; [vm_compute; reflexivity|].
  split; [vm_compute; right; left; reflexivity|]. split; [exact sampleWorld_order|]. split; [repeat split|].
  split; [exists {| mf_resources := map RPipeline gitlabPipelines |}; split; [vm_compute; reflexivity|vm_compute; right; left; reflexivity]|].
  split; [reflexivity|]. split; [eexists; vm_compute; reflexivity|]. split; [vm_compute; left; reflexivity|].
  split; [intros s H; vm_compute in H; destruct H as [<-|[<-|[<-|[]]]]; reflexivity|].
  split; [discriminate|]. split; [vm_compute; reflexivity|]. split; [reflexivity|].
  split; [intros st H; vm_compute in H; destruct H as [H|[]]; injection H as <-; reflexivity|].
  intros s H; vm_compute in H; destruct H as [<-|[<-|[<-|[]]]]; reflexivity.
Qed.
Print Assumptions C110_variables_refuted.
Example C110_case :
  gc_services gitlabRead = map Some gitlabImages /\ gc_jobs gitlabRead = ConverterSpec.present gitlabJobs /\ NoDup (mkeys gitlabJobs) /\
  map fst (gitlabPlan gitlabRead gitlabJobs) = ["build"; "test"] /\
  Forall (fun e => GoodJobs (map (gitlabJob gitlabRead) (snd e)) (map (gitlabService anyImage) gitlabImages)) (gitlabPlan gitlabRead gitlabJobs) /\
  ~ GoodJobs (map (gitlabJob gitlabRead) gitlabJobs) [gitlabJob gitlabRead ("unit", emptyJob)] /\
  map (fun s => (stepName s, st_detach s, ds_image (st_docker s))) (sp_steps unitSpec) =
    [("clone", false, "docker.io/drone/git:latest"); ("image__postgres", true, "docker.io/image/postgres:latest"); ("unit", false, "docker.io/library/golang:11")] /\
  (let x := run foreignMachine (AConvert false "" ".gitlab-ci.yml") (oneFile ".gitlab-ci.yml" gitlabText) in
   let y := run foreignMachine (ACompile "test" true (withEnv [] "a1b2c3") ".drone.yml") (oneFile ".drone.yml" (x_stderr x)) in
   let z := run foreignMachine (ALint false ".drone.yml") (oneFile ".drone.yml" (x_stderr x)) in
   x_status x = 0%Z /\ x_status y = 0%Z /\ x_status z = 0%Z /\ x_stdout y = "clone:a1b2c3;image__postgres:a1b2c3;unit:a1b2c3") /\
  (let x := run foreignMachine (AConvert false "" "bitbucket-pipelines.yml") (oneFile "bitbucket-pipelines.yml" bitbucketText) in
   let y := run foreignMachine (ACompile "" false (withEnv [] "a1b2c3") ".drone.yml") (oneFile ".drone.yml" (x_stderr x)) in
   let z := run foreignMachine (ALint false ".drone.yml") (oneFile ".drone.yml" (x_stderr x)) in
   x_status x = 0%Z /\ x_status y = 0%Z /\ x_status z = 0%Z /\ x_stdout y = "database:a1b2c3;step_0:a1b2c3;publish:a1b2c3").
Proof.
  assert (ND : forall l : list string, (fix go l := match l with [] => true | a :: r => negb (existsb (String.eqb a) r) && go r end)%bool l = true -> NoDup l).
  { induction l as [|a l IH]; intro H; [constructor|]. apply andb_prop in H as [H1 H2]. constructor; [|auto].
    intro I. apply Bool.negb_true_iff in H1. assert (existsb (String.eqb a) l = true) by (apply existsb_exists; exists a; split; [exact I|apply String.eqb_refl]). congruence. }
  split; [reflexivity|]. split; [reflexivity|]. split; [apply ND; reflexivity|]. split; [reflexivity|].
  split; [vm_compute; repeat constructor; try discriminate; intros H; repeat destruct H as [H|H]; try discriminate; try destruct H|].
  split; [intros [_ H]; vm_compute in H; inversion H as [|? ? _ H1]; subst; inversion H1 as [|? ? _ H2]; subst; inversion H2 as [|? ? H3 _]; subst; apply H3; left; reflexivity|].
  split; [vm_compute; reflexivity|]. cbv zeta. repeat split; vm_compute; reflexivity.
Qed.
