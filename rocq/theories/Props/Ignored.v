(** * Ignored.v: theorem C114. *)
From Verif Require Import Model.Go Model.Types Model.RawParse Model.Cond Model.Engine Model.Encode Model.Compiler Model.Main
  Spec.CondSpec Spec.CompileSpec Spec.MainSpec Spec.IgnoredSpec Proofs.PrettyClaims Proofs.Ignored Conform.LineDecoder Conform.Machines Conform.IgnoredCases.

(** ** C114 *)
Theorem C114_compile : forall rnd glob available isPrintHigh formatFloat toJSON ord c,
  (forall f, co_skip c = Some f -> Judges f) -> (forall f, co_privileged c = Some f -> Judges f) ->
  forall p q, SamePipeline p q -> forall n,
  Compile rnd glob available isPrintHigh formatFloat toJSON ord c p n = Compile rnd glob available isPrintHigh formatFloat toJSON ord c q n.
Proof. exact compile_same. Qed.
Print Assumptions C114_compile.
Theorem C114_command : forall mc name clone fl f fs fs' s t m m' p q,
  fs f = Some s -> fs' f = Some t -> parse (mc_decoder mc) s = Ok m -> parse (mc_decoder mc) t = Ok m' ->
  MainSpec.Selected name (mf_resources m) p -> MainSpec.Selected name (mf_resources m') q -> SamePipeline p q ->
  let x := run mc (ACompile name clone fl f) fs in let y := run mc (ACompile name clone fl f) fs' in
  x_status x = x_status y /\ x_stdout x = x_stdout y /\ x_stderr x = x_stderr y.
Proof. exact same_compile_command. Qed.
Print Assumptions C114_command.
(** So a pipeline that must not run for the branch given is compiled as any other. *)
Theorem C114_trigger_refuted : exists mc name fl f m p, let fs := oneFile f fancyFile in
  parse (mc_decoder mc) fancyFile = Ok m /\ MainSpec.Selected name (mf_resources m) p /\
  In (cf_branch fl) (c_exclude (w_branch (pi_trigger p))) /\
  x_status (run mc (ACompile name true fl f) fs) = 0%Z /\
  x_stdout (run mc (ACompile name true fl f) fs) = x_stdout (run mc (ACompile name true fl f) (oneFile f plainFile)).
Proof.
  exists sampleMachine, "default", (withEnv [] "abc"), "a.yml", fancyManifest, fancyPipeline. cbv zeta.
  split; [exact fancy_parse|]. split; [exact fancy_selected|]. split; [left; reflexivity|]. split; [vm_compute; reflexivity|].
  exact same_output.
Qed.
Print Assumptions C114_trigger_refuted.
Example C114_case : parse (mc_decoder sampleMachine) plainFile = Ok plainManifest /\ parse (mc_decoder sampleMachine) fancyFile = Ok fancyManifest /\
  MainSpec.Selected "default" (mf_resources plainManifest) plainPipeline /\ MainSpec.Selected "default" (mf_resources fancyManifest) fancyPipeline /\
  SamePipeline plainPipeline fancyPipeline /\ plainPipeline <> fancyPipeline /\
  (* one more service is not the same *)
  x_stdout (run sampleMachine (ACompile "default" true (withEnv [] "abc") "a.yml") (oneFile "a.yml" plainFile)) <>
  x_stdout (run sampleMachine (ACompile "default" true (withEnv [] "abc") "a.yml") (oneFile "a.yml" (plainFile +++ "- name: cache" +++ nl +++ "  image: redis" +++ nl)%string)).
Proof.
  split; [exact plain_parse|]. split; [exact fancy_parse|]. split; [exact plain_selected|]. split; [exact fancy_selected|].
  split; [exact plain_fancy|]. split; [|exact not_same_output]. intro E. apply (f_equal pi_depends) in E. discriminate E.
Qed.
