(** * Reorder.v: theorem C107. *)
From Coq Require Import Sorting.Permutation.
From Verif Require Import Model.Go Model.Types Model.RawParse Model.Decode Model.Engine Model.Image Model.Compiler Model.Transform Model.Pretty Model.Main
  Spec.LintSpec Spec.ParseSpec Spec.YamlSpec Spec.PrettySpec Spec.CompileSpec Spec.TransformSpec Spec.MainSpec Spec.ReorderSpec
  Proofs.CompileGraph Proofs.PrettyMore Proofs.PrettyClaims Proofs.Reorder Proofs.ReorderMore Conform.Pipelines Conform.Worlds Conform.Machines.

(** ** C107 *)
Theorem C107_map_order : forall w w' c hostDir hostMount p p' n m spec,
  OrderOk w -> OrderOk w' -> SameWorld w w' -> OrderedJSON (w_toJSON w) -> OrderBlind c -> Standard w c hostDir hostMount ->
  SamePipeline p p' -> ClearMaps p -> DistinctBuilds w p -> NoAliasClash w p spec ->
  compileIn w c p n = Ok (spec, m) -> exists spec', compileIn w' c p' n = Ok (spec', m) /\ SameSpec spec spec'.
Proof. exact reordered_compiled. Qed.
Print Assumptions C107_map_order.
Theorem C107_transformed : forall w w' c t hostDir hostMount p p' n m base,
  OrderOk w -> OrderOk w' -> SameWorld w w' -> OrderedJSON (w_toJSON w) -> OrderBlind c ->
  Standard w (noTransform c) hostDir hostMount -> co_transform c = Some t -> OrderProof t -> SamePipeline p p' ->
  ClearMaps p -> DistinctBuilds w p -> NoAliasClash w p base ->
  compileIn w (noTransform c) p n = Ok (base, m) ->
  SameResult (compileIn w c p n) (compileIn w' c p' n).
Proof. exact reordered_transformed. Qed.
Print Assumptions C107_transformed.
Theorem C107_transforms :
  (forall l, Forall OrderProof l -> OrderProof (Combine l)) /\
  (forall auths, OrderProof (fun s => mlift (WithAuths auths s))) /\
  (forall auths, OrderProof (fun s => mlift (WithAuthsFunc auths s))) /\
  (forall envs, OrderProof (fun s => mlift (WithEnviron envs s))) /\
  (forall names, OrderProof (fun s => mret (Include names s))) /\
  (forall names, OrderProof (fun s => mret (Exclude names s))) /\
  (forall name, OrderProof (fun s => mret (ResumeAt name s))) /\
  (forall ord labels, OrderProof (fun s => mlift (WithLables ord labels s))) /\
  (forall m c, OrderProof (fun s => mret (WithLimits m c s))) /\
  (forall machine username password, OrderProof (fun s => mlift (WithNetrc machine username password s))) /\
  (forall l, OrderProof (fun s => mret (WithNetworks l s))) /\
  (forall env ord, OrderProof (fun s => mlift (WithProxy env ord s))) /\
  (forall rnd secrets, OrderProof (WithSecrets rnd secrets)) /\
  (forall rnd volumes, OrderProof (WithVolumes rnd volumes)).
Proof. exact transforms_proof. Qed.
Print Assumptions C107_transforms.
(** Formatting a file does not change what the compile command makes of it. *)
Theorem C107_command : forall mc resolve ramInBytes reader priv f fs content m out name (clone : bool) fl p q,
  mc_decoder mc = treeDecoder ramInBytes reader -> Resolver resolve -> Reads resolve reader -> mc_writable mc f = true ->
  fs f = Some content -> parse (mc_decoder mc) content = Ok m -> mf_resources m <> [] ->
  Forall (Formattable resolve ramInBytes (w_formatFloat (mc_world mc)) (mc_bytesSize mc)) (mf_resources m) ->
  formatted mc m = Ok out -> (forall lines, ParseSpec.Lines out lines -> Forall ParseSpec.Short lines) ->
  OrderOk (mc_world mc) -> OrderedJSON (w_toJSON (mc_world mc)) ->
  Selected name (mf_resources m) p -> (if clone then q = p else WithoutClone p q) ->
  ClearMaps q -> DistinctBuilds (mc_world mc) q ->
  (forall c base, CommandCompiler mc fl c -> Compiled (mc_world mc) c q 0 base -> NoAliasClash (mc_world mc) q base) ->
  let before := run mc (ACompile name clone fl f) fs in
  let after := run mc (ACompile name clone fl f) (x_files (run mc (AFormat priv true f) fs)) in
  x_status after = x_status before /\ x_stderr after = x_stderr before /\
  (x_status before = 0%Z -> exists spec spec', SameSpec spec spec' /\
     x_stdout before = mc_specJSON mc spec /\ x_stdout after = mc_specJSON mc spec').
Proof. exact format_then_compile. Qed.
Print Assumptions C107_command.

(** A plugin with two secrets and a nested setting, beside a build and a step that uses what it built. *)
Definition settingOf (v : value) : option Parameter_ := Some {| p_value := v; p_secret := "" |}.
Definition secretSetting (name : string) : option Parameter_ := Some {| p_value := VNull; p_secret := name |}.
Definition nested (m : list (value * value)) : smap (option Parameter_) :=
  [("repo", settingOf (VStr "octocat/app")); ("map", settingOf (VMap m)); ("user", secretSetting "u"); ("password", secretSetting "p")].
Definition deploy : Container := container "deploy" "plugins/docker" None [] [] [].
Definition oneOrder : Pipeline := with_steps Pipelines.samplePipeline
  [set_settings (nested [(VStr "a", VInt 1); (VStr "b", VInt 2)]) deploy; publish; useBuilt].
Definition otherOrder : Pipeline := with_steps Pipelines.samplePipeline
  [reordered deploy None (rev (ct_environment deploy)) (rev (nested [(VStr "b", VInt 2); (VStr "a", VInt 1)])); publish; useBuilt].
Lemma container_same c : SameContainer c c.
Proof.
  replace c with (reordered c (ct_build c) (ct_environment c) (ct_settings c)) at 2 by (destruct c; reflexivity).
  apply same_container with (settings := ct_settings c); try apply Permutation_refl.
  - destruct (ct_build c); constructor; reflexivity.
  - induction (ct_settings c) as [|[k [x|]] l IH]; constructor; try exact IH; split; try reflexivity; constructor; [reflexivity|apply same_value].
Qed.
Lemma orders_same : SamePipeline oneOrder otherOrder.
Proof.
  constructor; try reflexivity; [left; reflexivity|repeat constructor; apply container_same|].
  repeat (apply Forall2_cons; [constructor|]); [|apply container_same|apply container_same|constructor].
  change (reordered deploy None (rev (ct_environment deploy)) (rev (nested [(VStr "b", VInt 2); (VStr "a", VInt 1)])))
    with (reordered (set_settings (nested [(VStr "a", VInt 1); (VStr "b", VInt 2)]) deploy) None (rev (ct_environment deploy))
            (rev (nested [(VStr "b", VInt 2); (VStr "a", VInt 1)]))).
  eapply same_container; [constructor|apply Permutation_rev| |apply Permutation_rev].
  repeat (apply Forall2_cons; [split; [reflexivity|constructor; [reflexivity|]]|]); [apply same_value| |apply same_value|apply same_value|constructor].
  eapply same_map; [|apply perm_swap]. repeat constructor.
Qed.
Definition oneSpec : Spec := specFrom sampleWorld defaultCompiler oneOrder.
Definition otherSpec : Spec := specFrom reverseWorld defaultCompiler otherOrder.
Lemma orders_ok : ClearMaps oneOrder /\ DistinctBuilds sampleWorld oneOrder /\ NoAliasClash sampleWorld oneOrder oneSpec.
Proof.
  split; [repeat constructor; cbn; intuition discriminate|]. split; [vm_compute; repeat constructor; intros []|].
  intros k k' s [<-|[]] [<-|[]] Hs.
  assert (F : forallb (fun s => negb (MatchTag (w_available sampleWorld) (Trim (w_available sampleWorld) "octocat/app" +++ ":" +++ md_uid (st_meta s))%string "octocat/app")) (sp_steps oneSpec) = true)
    by (vm_compute; reflexivity).
  rewrite forallb_forall in F. apply negb_true_iff. exact (F s Hs).
Qed.
Example C107_case : OrderOk sampleWorld /\ OrderOk reverseWorld /\ SameWorld sampleWorld reverseWorld /\ OrderedJSON (w_toJSON sampleWorld) /\
  OrderBlind defaultCompiler /\ Standard sampleWorld defaultCompiler None false /\ SamePipeline oneOrder otherOrder /\
  ClearMaps oneOrder /\ DistinctBuilds sampleWorld oneOrder /\ NoAliasClash sampleWorld oneOrder oneSpec /\
  Compiled sampleWorld defaultCompiler oneOrder 0 oneSpec /\ Compiled reverseWorld defaultCompiler otherOrder 0 otherSpec /\
  map stepName (sp_steps otherSpec) = ["clone"; "db"; "deploy"; "publish"; "use"] /\
  (match nth_error (sp_steps otherSpec) 2 with Some s => map (envOf s) ["PLUGIN_REPO"; "PLUGIN_MAP"; "GOOS"] | None => [] end) = [Some "octocat/app"; Some "{}"; Some "linux"].
Proof.
  split; [exact sampleWorld_order|]. split; [exact reverseWorld_order|]. split; [repeat split|]. split; [intros v v' _; reflexivity|].
  split; [intros f [E|E]; discriminate|]. split; [repeat split|]. split; [exact orders_same|].
  destruct orders_ok as (A & B & C). split; [exact A|]. split; [exact B|]. split; [exact C|].
  split; [eexists; vm_compute; reflexivity|]. split; [eexists; vm_compute; reflexivity|]. split; vm_compute; reflexivity.
Qed.
(** The specs are not equal: the secrets of a step are listed in the order of the maps. *)
Theorem C107_equal_refuted : exists w c p p' spec spec',
  OrderOk w /\ OrderedJSON (w_toJSON w) /\ Default c /\ SamePipeline p p' /\ ClearMaps p /\ DistinctBuilds w p /\ NoAliasClash w p spec /\
  Compiled w c p 0 spec /\ Compiled w c p' 0 spec' /\
  map (fun s => map sv_name (st_secrets s)) (sp_steps spec) <> map (fun s => map sv_name (st_secrets s)) (sp_steps spec').
Proof.
  exists sampleWorld, defaultCompiler, oneOrder, otherOrder, oneSpec, (specFrom sampleWorld defaultCompiler otherOrder).
  split; [exact sampleWorld_order|]. split; [intros v v' _; reflexivity|]. split; [repeat split|]. split; [exact orders_same|].
  destruct orders_ok as (A & B & C). split; [exact A|]. split; [exact B|]. split; [exact C|].
  split; [eexists; vm_compute; reflexivity|]. split; [eexists; vm_compute; reflexivity|]. vm_compute. discriminate.
Qed.
Print Assumptions C107_equal_refuted.
(** Formatting spells out the platform, and the spec then has it. *)
Definition platformMachine : Machine :=
  {| mc_decoder := sampleDecoder; mc_mac := mc_mac sampleMachine; mc_bitbucket := mc_bitbucket sampleMachine;
     mc_gitlab := mc_gitlab sampleMachine; mc_legacy := mc_legacy sampleMachine; mc_world := mc_world sampleMachine;
     mc_sprintFloat := noFloat; mc_bytesSize := noBytes;
     mc_specJSON := fun s => (pl_os (sp_platform s) +++ "/" +++ pl_arch (sp_platform s))%string;
     mc_env := fun _ => ""; mc_envOrd := fun m => m; mc_proxyOrd := fun m => m; mc_labelOrd := fun _ m => m;
     mc_writable := fun _ => true; mc_fatal := mc_fatal sampleMachine; mc_trace := "panic" |}.
Theorem C107_same_output_refuted : exists mc f fs fl,
  let before := run mc (ACompile "" true fl f) fs in
  let after := run mc (ACompile "" true fl f) (x_files (run mc (AFormat false true f) fs)) in
  x_status before = 0%Z /\ x_status after = 0%Z /\ x_stdout before = "/" /\ x_stdout after = "linux/amd64".
Proof. exists platformMachine, "a.yml", (oneFile "a.yml" waitsFile), (withEnv [] "abc"). vm_compute. repeat split; reflexivity. Qed.
Print Assumptions C107_same_output_refuted.
(** The file of the other cases meets what the theorem asks for, and compiles alike. *)
Example C107_command_case : Forall (Formattable plainResolve noSize noFloat noBytes) (mf_resources sampleManifest) /\
  parse (mc_decoder sampleMachine) sampleText = Ok sampleManifest /\
  Selected "" (mf_resources sampleManifest) PrettyClaims.samplePipeline /\ ClearMaps PrettyClaims.samplePipeline /\
  DistinctBuilds (mc_world sampleMachine) PrettyClaims.samplePipeline /\
  (forall base, NoAliasClash (mc_world sampleMachine) PrettyClaims.samplePipeline base) /\
  OrderOk (mc_world sampleMachine) /\ OrderedJSON (w_toJSON (mc_world sampleMachine)) /\
  (let run1 fs := run sampleMachine (ACompile "" true (withEnv [] "abc") "a.yml") fs in
   let fs := oneFile "a.yml" sampleText in let fs' := x_files (run sampleMachine (AFormat false true "a.yml") fs) in
   x_status (run1 fs) = 0%Z /\ x_stdout (run1 fs') = x_stdout (run1 fs) /\ fs' "a.yml" <> fs "a.yml").
Proof.
  split; [exact sample_formattable|]. split; [vm_compute; reflexivity|].
  split; [exists [], (tl (mf_resources sampleManifest)); split; [reflexivity|split; [left; reflexivity|intros q []]]|].
  split; [repeat constructor; cbn; intuition discriminate|]. split; [constructor|]. split; [intros base k k' s []|].
  split; [intros i m; apply Permutation_refl|]. split; [intros v v' _; reflexivity|].
  cbv zeta. split; [vm_compute; reflexivity|]. split; [vm_compute; reflexivity|]. vm_compute. discriminate.
Qed.
