(** * CompileMore.v: theorems C75 to C81, more about compiled pipelines. *)
From Coq Require Import Sorting.Permutation Floats.SpecFloat.
From Verif Require Import Model.Go Model.Types Model.Cond Model.Lint Model.Engine Model.Image Model.Quote Model.Script
  Model.Path Model.Encode Model.Compiler Spec.LintSpec Spec.ScriptSpec Spec.CompileSpec Spec.SettingSpec
  Proofs.CompileFacts Proofs.CompileSteps Proofs.CompileWhole Proofs.ScriptFacts Proofs.CompileMore
  Conform.Pipelines Conform.Worlds.

(** ** C75 *)
Theorem C75_total : forall w c hostDir hostMount p n, Standard w c hostDir hostMount ->
  ((exists steps services vols, Complete p steps services vols) <-> exists spec, Compiled w c p n spec) /\
  (~ (exists steps services vols, Complete p steps services vols) <-> compileIn w c p n = Panic).
Proof. exact compile_total. Qed.
Print Assumptions C75_total.
Example C75_case : Complete buildPipeline [sampleBuild; publish; useBuilt] [sampleDb] [sampleVolume] /\
  compileIn sampleWorld defaultCompiler (set_steps samplePipeline [Some sampleBuild; None]) 0 = Panic.
Proof.
  split; [|vm_compute; reflexivity]. repeat split; repeat constructor; cbn; intuition discriminate.
Qed.

(** ** C76 *)
Theorem C76_carried_fields : forall w c hostDir hostMount p n spec,
  Standard w c hostDir hostMount -> Compiled w c p n spec -> Forall2 RightFields (origins p) (sp_steps spec).
Proof. exact steps_fields. Qed.
Print Assumptions C76_carried_fields.
Theorem C76_header : forall w c hostDir hostMount p n n' spec,
  Standard w c hostDir hostMount -> compileIn w c p n = Ok (spec, n') -> RightHeader p spec.
Proof. exact header. Qed.
Print Assumptions C76_header.
Theorem C76_files : forall w c hostDir hostMount p n n' spec,
  Standard w c hostDir hostMount -> compileIn w c p n = Ok (spec, n') ->
  map (fun f => (md_name (fi_meta f), fi_data f)) (sp_files spec) = wantedFiles w c p.
Proof. exact files_wanted. Qed.
Print Assumptions C76_files.
Example C76_case : let spec := specFrom sampleWorld defaultCompiler buildPipeline in
  map (fun s => length (ds_ports (st_docker s))) (sp_steps spec) = [0; 1; 1; 0; 1] /\
  map fst (wantedFiles sampleWorld defaultCompiler buildPipeline) = [".git-credentials"; "build"; "use"] /\
  md_labels (sp_meta spec) = Some [("io.drone.pipeline.name", "default"); ("io.drone.pipeline.kind", "pipeline"); ("io.drone.pipeline.type", "docker")].
Proof. vm_compute. auto. Qed.
(** What a build step asks for besides its build is lost: commands and the ports of the sample container. *)
Theorem C76_build_steps_refuted : exists w c p spec src s b,
  Default c /\ Compiled w c p 0 spec /\ Lint (RPipeline p) true = Ok tt /\
  In (FromStep src, s) (combine (origins p) (sp_steps spec)) /\ ct_build src = Some b /\
  ct_commands src <> [] /\ st_files s = [] /\ ct_ports src <> [] /\ ds_ports (st_docker s) = [] /\
  ct_environment src <> [] /\ envOf s "GOOS" = None /\ st_secrets s = [].
Proof.
  set (src := container "publish" "" (Some (buildOf "octocat/app")) ["make"] [] []).
  set (p := with_steps samplePipeline [src]).
  exists sampleWorld, defaultCompiler, p, (specFrom sampleWorld defaultCompiler p), src,
    (last (sp_steps (specFrom sampleWorld defaultCompiler p)) noStep), (buildOf "octocat/app").
  split; [repeat split|]. split; [eexists; vm_compute; reflexivity|]. split; [reflexivity|]. split; [vm_compute; auto|].
  split; [reflexivity|]. split; [discriminate|]. split; [vm_compute; reflexivity|]. split; [discriminate|]. split; [vm_compute; reflexivity|].
  split; [discriminate|]. split; vm_compute; reflexivity.
Qed.
Print Assumptions C76_build_steps_refuted.

(** ** C77 *)
Theorem C77_clone_image : forall p, CloneImage p (cloneImage p).
Proof. exact cloneImage_ok. Qed.
Print Assumptions C77_clone_image.
Theorem C77_clone_credentials : forall w c hostDir hostMount p n n' spec,
  Standard w c hostDir hostMount -> compileIn w c p n = Ok (spec, n') -> Forall2 (RightCloneFiles c) (origins p) (sp_steps spec).
Proof. exact clone_files. Qed.
Print Assumptions C77_clone_credentials.
Example C77_case : cloneImage samplePipeline = "drone/git:linux-arm64" /\ cloneImage (set_os "windows" samplePipeline) = "drone/git:windows-1809-amd64" /\
  map (fun s => length (st_files s)) (sp_steps (specFrom sampleWorld defaultCompiler (with_steps samplePipeline [publish]))) = [1; 0; 0] /\
  map (fun s => length (st_files s)) (sp_steps (specFrom sampleWorld pickyCompiler (with_steps samplePipeline [publish]))) = [0; 0; 0].
Proof. vm_compute. auto. Qed.

(** ** C78 *)
Theorem C78_trace_word : forall iph cmd, TraceWord cmd (escaped iph cmd).
Proof. exact escaped_trace. Qed.
Print Assumptions C78_trace_word.
Theorem C78_trace_prints_command : forall iph cmd, hasChar backquote cmd = false ->
  exists t, ShellWord (escaped iph cmd) t /\ (Printable cmd -> t = cmd).
Proof. exact escaped_word. Qed.
Print Assumptions C78_trace_prints_command.
Theorem C78_trace_injective : forall iph a b, escaped iph a = escaped iph b -> a = b.
Proof. exact escaped_inj. Qed.
Print Assumptions C78_trace_injective.
Theorem C78_windows_trace : forall iph cmd rest, hasChar "'" cmd = false -> (forall r, rest <> String "'" r) ->
  squoted ("+ " +++ escaped iph cmd +++ String "'" rest) = Some (("+ " +++ escaped iph cmd)%string, rest).
Proof. exact escaped_win. Qed.
Print Assumptions C78_windows_trace.
Theorem C78_script_variable : forall s, unbase64 (Quote.base64 s) = Some s.
Proof. exact unbase64_base64. Qed.
Print Assumptions C78_script_variable.
Example C78_case : escaped (fun _ => true) "echo ""$HOME"" \" = """echo \""\$HOME\"" \\""" /\
  dquoted "echo \""\$HOME\"" \\""" = Some ("echo ""$HOME"" \", "") /\ unbase64 "Z28gdGVzdA==" = Some "go test".
Proof. vm_compute. auto. Qed.
(** A command with a backquote is not printed but evaluated once more. *)
Theorem C78_backquote_refuted : exists iph cmd, Printable cmd /\ forall t, ~ ShellWord (escaped iph cmd) t.
Proof.
  exists (fun _ => true), "echo `rm -rf x`". split.
  - intros c I. cbn in I. repeat (destruct I as [<-|I]; [vm_compute; split; discriminate|]). destruct I.
  - intros t (body & E & D). vm_compute in E. injection E as <-. vm_compute in D. discriminate.
Qed.
Print Assumptions C78_backquote_refuted.
(** A quote in a command ends the string that PowerShell is to print. *)
Theorem C78_windows_quote_refuted : exists iph cmd rest t, hasChar "'" rest = false /\
  squoted ("+ " +++ escaped iph cmd +++ String "'" rest) = Some (t, "; exit 0;#""');")%string.
Proof. exists (fun _ => true), "x'; exit 0;#", ");", "+ ""x". split; reflexivity. Qed.
Print Assumptions C78_windows_quote_refuted.

(** ** C79 *)
Theorem C79_setting_text : forall formatFloat toJSON v, SettingText formatFloat toJSON v (encode formatFloat toJSON v).
Proof. exact encode_text. Qed.
Print Assumptions C79_setting_text.
Theorem C79_list_recovered : forall formatFloat toJSON l, l <> [] -> Forall (fun s => hasChar "," s = false) l ->
  split_on "," (encode formatFloat toJSON (VList (map VStr l))) = l.
Proof. exact encode_list_back. Qed.
Print Assumptions C79_list_recovered.
Example C79_case : encode (fun _ => "1.5") (fun _ => "{}") (VList [VInt (-12); VBool true; VNull; VFloat (S754_zero false); VStr "x"]) = "-12,true,,1.5,x" /\
  encode (fun _ => "1.5") (fun _ => "[[]]") (VList [VList []]) = "[[]]".
Proof. split; reflexivity. Qed.
Theorem C79_list_injective_refuted : forall formatFloat toJSON, exists a b, a <> b /\
  encode formatFloat toJSON (VList (map VStr a)) = encode formatFloat toJSON (VList (map VStr b)).
Proof. intros. exists ["a,b"], ["a"; "b"]. split; [discriminate|reflexivity]. Qed.
Print Assumptions C79_list_injective_refuted.

(** ** C80 *)
Theorem C80_resources : forall w c hostDir hostMount p n spec,
  Standard w c hostDir hostMount -> Compiled w c p n spec -> Forall2 RightResources (origins p) (sp_steps spec).
Proof. exact steps_resources. Qed.
Print Assumptions C80_resources.
(** Half a CPU, 1.5 CPUs. *)
Example C80_case : NormalFraction (S754_finite false 6755399441055744 (-52)) 6755399441055744 52 /\
  toCPUMillis (S754_finite false 6755399441055744 (-52)) = 1500%Z /\ toCPUMillis (S754_finite false 4503599627370496 (-53)) = 500%Z.
Proof. split; [split; [reflexivity|vm_compute; repeat split; discriminate]|vm_compute; auto]. Qed.
(** 1.001 CPUs are 1000 thousandths: the double nearest to 1.001 gives a product below 1001. *)
Theorem C80_thousandths_refuted : exists f m d, NormalFraction f m d /\
  (forall m', Z.abs (1000 * Zpos m - 1001 * 2 ^ d) <= Z.abs (1000 * Zpos m' - 1001 * 2 ^ d))%Z /\ toCPUMillis f = 1000%Z.
Proof.
  exists (S754_finite false 4508103226997866 (-52)), 4508103226997866%positive, 52%Z.
  split; [split; [reflexivity|vm_compute; repeat split; discriminate]|]. split; [|vm_compute; reflexivity].
  intro m'. change (1001 * 2 ^ 52)%Z with 4508103226997866496%Z. Lia.lia.
Qed.
Print Assumptions C80_thousandths_refuted.

(** ** C81 *)
Theorem C81_volume_names : forall w c hostDir hostMount p n n' spec,
  Standard w c hostDir hostMount -> compileIn w c p n = Ok (spec, n') ->
  volumeNames spec = "workspace" :: match hostDir with Some _ => ["host"] | None => [] end ++ declaredNames p ++
    match builds (origins p) with [] => [] | _ => ["_docker_socket"] end.
Proof. exact volume_names. Qed.
Print Assumptions C81_volume_names.
Theorem C81_mounts_resolve : forall w c hostDir hostMount p n n' spec,
  Standard w c hostDir hostMount -> compileIn w c p n = Ok (spec, n') ->
  forall trusted, Lint (RPipeline p) trusted = Ok tt ->
  (hostMount = true -> hostDir <> None) -> NoDup (declaredNames p) -> (hostDir <> None -> ~ In "host" (declaredNames p)) ->
  MountsDeclared p ->
  NoDup (volumeNames spec) /\ Forall (fun s => Forall (fun m => In (mo_name m) (volumeNames spec)) (st_volumes s)) (sp_steps spec).
Proof. exact mounts_resolve. Qed.
Print Assumptions C81_mounts_resolve.
Example C81_case : NoDup (declaredNames buildPipeline) /\ ~ In "host" (declaredNames buildPipeline) /\ MountsDeclared buildPipeline /\
  volumeNames (specFrom sampleWorld hostCompiler buildPipeline) = ["workspace"; "host"; "cache"; "_docker_socket"].
Proof.
  split; [repeat constructor; cbn; intuition discriminate|]. split; [cbn; intuition discriminate|]. split; [|vm_compute; reflexivity].
  intros src m [I|[I B]] J; cbn in I; repeat (destruct I as [<-|I]; [cbn in J; intuition (subst; cbn; auto; discriminate)|]); destruct I.
Qed.
(** The linter accepts a mount that no volume stands behind, two volumes of one name, and a volume that
    has the name of the host workspace. *)
Definition with_volumes (vols : list (option Volume)) (p : Pipeline) : Pipeline :=
  {| pi_version := pi_version p; pi_kind := pi_kind p; pi_type := pi_type p; pi_name := pi_name p; pi_clone := pi_clone p;
     pi_concurrency := pi_concurrency p; pi_depends := pi_depends p; pi_node := pi_node p;
     pi_platform := pi_platform p; pi_pull_secrets := pi_pull_secrets p; pi_services := pi_services p;
     pi_steps := pi_steps p; pi_trigger := pi_trigger p; pi_volumes := vols; pi_workspace := pi_workspace p |}.
Theorem C81_undeclared_mount_refuted : exists w c p spec s m,
  Default c /\ Compiled w c p 0 spec /\ Lint (RPipeline p) false = Ok tt /\
  In s (sp_steps spec) /\ In m (st_volumes s) /\ ~ In (mo_name m) (volumeNames spec).
Proof.
  set (p := with_volumes [] samplePipeline).
  exists sampleWorld, defaultCompiler, p, (specFrom sampleWorld defaultCompiler p), (nth 2 (sp_steps (specFrom sampleWorld defaultCompiler p)) noStep),
    {| mo_name := "cache"; mo_path := vm_path sampleMount |}.
  split; [repeat split|]. split; [eexists; vm_compute; reflexivity|]. split; [reflexivity|]. split; [vm_compute; auto|]. split; [vm_compute; auto|].
  vm_compute. intuition discriminate.
Qed.
Print Assumptions C81_undeclared_mount_refuted.
Theorem C81_duplicate_volumes_refuted : exists w c p spec,
  Default c /\ Compiled w c p 0 spec /\ Lint (RPipeline p) false = Ok tt /\ ~ NoDup (volumeNames spec).
Proof.
  set (p := with_volumes [Some sampleVolume; Some sampleVolume] samplePipeline).
  exists sampleWorld, defaultCompiler, p, (specFrom sampleWorld defaultCompiler p).
  split; [repeat split|]. split; [eexists; vm_compute; reflexivity|]. split; [reflexivity|].
  intro N. vm_compute in N. inversion N as [|? ? _ N2]. inversion N2 as [|? ? A _]. apply A. left. reflexivity.
Qed.
Print Assumptions C81_duplicate_volumes_refuted.
Theorem C81_host_volume_refuted : exists w c p spec dir,
  Standard w c (Some dir) true /\ Compiled w c p 0 spec /\ Lint (RPipeline p) false = Ok tt /\ ~ NoDup (volumeNames spec).
Proof.
  set (p := with_volumes [Some {| vo_name := "host"; vo_empty := Some {| ve_medium := ""; ve_size := 0 |}; vo_host := None |}] samplePipeline).
  exists sampleWorld, hostCompiler, p, (specFrom sampleWorld hostCompiler p), "/home/me/src".
  split; [exact hostCompiler_Standard|]. split; [eexists; vm_compute; reflexivity|]. split; [reflexivity|].
  intro N. vm_compute in N. inversion N as [|? ? _ N2]. inversion N2 as [|? ? A _]. apply A. left. reflexivity.
Qed.
Print Assumptions C81_host_volume_refuted.
