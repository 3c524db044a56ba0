(** * Lint.v: theorems C16 to C21 and C53. *)
From Verif Require Import Model.Go Model.Types Model.Lint Spec.LintSpec Proofs.LintFacts Conform.Pipelines.

(** ** C16 *)
Theorem C16_lint_iff_well_formed : forall trusted p steps services vols,
  NoNulls p steps services vols ->
  (Lint (RPipeline p) trusted = Ok tt <-> WellFormed trusted p steps services vols).
Proof. exact checkPipeline_ok. Qed.
Print Assumptions C16_lint_iff_well_formed.

Theorem C16_every_error_names_a_defect : forall trusted p steps services vols e,
  NoNulls p steps services vols -> Lint (RPipeline p) trusted = Err e -> Problem trusted p steps services vols e.
Proof. exact checkPipeline_err. Qed.
Print Assumptions C16_every_error_names_a_defect.

Theorem C16_defects_are_refused : forall trusted p steps services vols e,
  Problem trusted p steps services vols e -> ~ WellFormed trusted p steps services vols.
Proof. exact Problem_bad. Qed.
Print Assumptions C16_defects_are_refused.

Example C16_case : NoNulls samplePipeline [sampleBuild; sampleTest] [sampleDb] [sampleVolume].
Proof. exact samplePipeline_NoNulls. Qed.
Example C16_case_ok : Lint (RPipeline samplePipeline) false = Ok tt.
Proof. reflexivity. Qed.
Example C16_case_err :
  Lint (RPipeline (with_steps samplePipeline [sampleTest; sampleBuild])) false =
  Err "linter: invalid or unknown step dependency" /\
  Problem false (with_steps samplePipeline [sampleTest; sampleBuild]) [sampleTest; sampleBuild] [sampleDb] [sampleVolume]
    "linter: invalid or unknown step dependency".
Proof.
  split; [reflexivity|]. apply (P_missing _ _ _ _ _ [] sampleTest [sampleBuild] "build"); cbn; auto; try discriminate.
  intros [H|[]]. discriminate.
Qed.

(** ** C17 *)
Theorem C17_untrusted_is_unprivileged : forall p steps services vols,
  NoNulls p steps services vols -> Lint (RPipeline p) false = Ok tt ->
  Forall Unprivileged (steps ++ services) /\ Forall UnprivilegedVolume vols.
Proof. exact untrusted_safe. Qed.
Print Assumptions C17_untrusted_is_unprivileged.
Example C17_case :
  Lint (RPipeline samplePipeline) false = Ok tt /\
  Lint (RPipeline (with_steps samplePipeline [privileged sampleBuild])) false =
    Err "linter: untrusted repositories cannot enable privileged mode" /\
  Lint (RPipeline (with_steps samplePipeline [privileged sampleBuild])) true = Ok tt.
Proof. repeat split. Qed.

(** ** C18 *)
Theorem C18_trust_monotone : forall r,
  Lint r false = Ok tt -> Lint r true = Ok tt.
Proof. exact lint_trust_monotone. Qed.
Print Assumptions C18_trust_monotone.

Theorem C18_trust_exactly : forall p steps services vols,
  NoNulls p steps services vols ->
  (Lint (RPipeline p) false = Ok tt <->
   Lint (RPipeline p) true = Ok tt /\ Forall Unprivileged (steps ++ services) /\ Forall UnprivilegedVolume vols).
Proof. exact trust_iff. Qed.
Print Assumptions C18_trust_exactly.

Theorem C18_manifest_ignores_trust : forall m t t', lintManifest m t = lintManifest m t'.
Proof. exact lintManifest_trust. Qed.
Print Assumptions C18_manifest_ignores_trust.
Example C18_case :
  Lint (RPipeline samplePipeline) false = Ok tt /\ Lint (RPipeline samplePipeline) true = Ok tt /\
  (exists e, Lint (RPipeline (with_steps samplePipeline [sampleTest])) true = Err e).
Proof. repeat split. eexists. reflexivity. Qed.

(** ** C19 *)
Theorem C19_step_graph : forall trusted p steps services vols,
  NoNulls p steps services vols -> Lint (RPipeline p) trusted = Ok tt ->
  Acyclic (DependsOn steps) /\
  (forall s d, In s steps -> In d (ct_depends s) ->
     In d (map ct_name steps) \/ (d = "clone" /\ cl_disable (pi_clone p) = false)) /\
  (forall before s after d, steps = before ++ s :: after -> In d (ct_depends s) ->
     In d (map ct_name before) \/ (d = "clone" /\ cl_disable (pi_clone p) = false)) /\
  NoDup (map ct_name steps).
Proof. exact step_graph. Qed.
Print Assumptions C19_step_graph.
Example C19_case : DependsOn [sampleBuild; sampleTest] "test" "build" /\ DependsOn [sampleBuild; sampleTest] "test" "clone".
Proof. split; exists sampleTest; cbn; auto. Qed.

(** ** C20 *)
Theorem C20_manifest_iff : forall m trusted,
  lintManifest m trusted = Ok tt <-> GoodManifest (pipelinesOf (mf_resources m)).
Proof. exact lintManifest_ok. Qed.
Print Assumptions C20_manifest_iff.

Theorem C20_no_pipeline_cycle : forall m trusted,
  lintManifest m trusted = Ok tt -> Acyclic (PipelineDependsOn (pipelinesOf (mf_resources m))).
Proof. exact manifest_graph. Qed.
Print Assumptions C20_no_pipeline_cycle.

Theorem C20_manifest_errors : forall m trusted e,
  lintManifest m trusted = Err e -> ManifestProblem (pipelinesOf (mf_resources m)) e.
Proof. exact lintManifest_err. Qed.
Print Assumptions C20_manifest_errors.

Theorem C20_never_cyclical_pipeline_error : forall m trusted,
  lintManifest m trusted <> Err "linter: cyclical pipeline dependency detected".
Proof. exact manifest_never_cyclical. Qed.
Print Assumptions C20_never_cyclical_pipeline_error.

Theorem C20_cyclical_step_error_means_self_dependency : forall p trusted steps services vols,
  NoNulls p steps services vols ->
  Lint (RPipeline p) trusted = Err "linter: cyclical step dependency detected" ->
  exists s, In s steps /\ In (ct_name s) (ct_depends s).
Proof. exact cyclical_step_error. Qed.
Print Assumptions C20_cyclical_step_error_means_self_dependency.
Example C20_case :
  lintManifest {| mf_resources := [RPipeline samplePipeline; RCron sampleCron; RPipeline secondPipeline] |} false = Ok tt /\
  PipelineDependsOn [samplePipeline; secondPipeline] "second" "default" /\
  lintManifest {| mf_resources := [RPipeline secondPipeline; RPipeline samplePipeline] |} false =
    Err "linter: invalid or unknown pipeline dependency".
Proof. split; [reflexivity|]. split; [|reflexivity]. exists secondPipeline. cbn. auto. Qed.
Example C20_case_self :
  Lint (RPipeline (with_steps samplePipeline [selfish])) true = Err "linter: cyclical step dependency detected" /\
  NoNulls (with_steps samplePipeline [selfish]) [selfish] [sampleDb] [sampleVolume].
Proof. split; [reflexivity|]. repeat split; repeat constructor; cbn; intuition discriminate. Qed.

(** ** C21 *)
Theorem C21_lint_never_panics : forall r trusted,
  (forall p, r = RPipeline p -> exists steps services vols, NoNulls p steps services vols) ->
  Lint r trusted <> Panic.
Proof. exact lint_np. Qed.
Print Assumptions C21_lint_never_panics.

Theorem C21_manifest_lint_never_panics : forall m trusted, lintManifest m trusted <> Panic.
Proof. exact manifest_np. Qed.
Print Assumptions C21_manifest_lint_never_panics.

Theorem C21_lint_never_panics_refuted : exists r trusted, Lint r trusted = Panic.
Proof. exists (RPipeline (set_steps samplePipeline [Some sampleBuild; None])), true. reflexivity. Qed.
Print Assumptions C21_lint_never_panics_refuted.

Theorem C21_null_step_panics : forall p trusted steps services vols l2,
  pi_volumes p = map Some vols ->
  Forall (fun c => ~ In None (ct_ports c) /\ ~ In None (ct_volumes c)) steps ->
  WellFormed trusted p steps services vols ->
  pi_steps p = map Some steps ++ None :: l2 -> Lint (RPipeline p) trusted = Panic.
Proof. exact nil_step_panics. Qed.
Print Assumptions C21_null_step_panics.
Example C21_case :
  Lint (RPipeline (set_steps samplePipeline [Some sampleBuild; None])) true = Panic /\
  Lint (RPipeline (set_steps samplePipeline [Some sampleBuild])) true = Ok tt /\
  WellFormed true (set_steps samplePipeline [Some sampleBuild; None]) [sampleBuild] [] [sampleVolume].
Proof.
  split; [reflexivity|]. split; [reflexivity|].
  apply (C16_lint_iff_well_formed true (without_services (with_steps samplePipeline [sampleBuild])) [sampleBuild] [] [sampleVolume]);
    [|reflexivity].
  repeat split; repeat constructor; cbn; intuition discriminate.
Qed.

(** ** C53 *)
Theorem C53_cron : forall c trusted, Lint (RCron c) trusted = Ok tt <-> cr_branch c <> "".
Proof. intros c trusted. exact (validateCron_ok c). Qed.
Print Assumptions C53_cron.
Theorem C53_secret : forall s trusted,
  Lint (RSecret s) trusted = Ok tt <-> se_data s <> "" \/ se_get_path s <> "" \/ se_get_name s <> "".
Proof. intros s trusted. exact (validateSecret_ok s). Qed.
Print Assumptions C53_secret.
Theorem C53_signature : forall s trusted, Lint (RSignature s) trusted = Ok tt <-> si_hmac s <> "".
Proof. intros s trusted. exact (validateSignature_ok s). Qed.
Print Assumptions C53_signature.
Theorem C53_registry : forall r trusted, Lint (RRegistry r) trusted = Ok tt <-> rg_data r <> [].
Proof. intros r trusted. exact (validateRegistry_ok r). Qed.
Print Assumptions C53_registry.
Example C53_case :
  Lint (RCron sampleCron) false = Ok tt /\
  Lint (RSecret {| se_version := ""; se_kind := "secret"; se_type := ""; se_name := "a"; se_data := ""; se_get_path := "";
                   se_get_name := ""; se_get_key := "k" |}) true = Err "yaml: invalid secret resource" /\
  Lint (RSignature {| si_version := ""; si_kind := "signature"; si_hmac := "ab" |}) false = Ok tt /\
  Lint (RRegistry {| rg_version := ""; rg_kind := "registry"; rg_type := ""; rg_data := [("a", "b")] |}) false = Ok tt.
Proof. repeat split. Qed.
