(** * Titled.v: theorem C125. *)
From Verif Require Import Model.Go Model.Types Model.Compiler Model.Lint Spec.CompileSpec Spec.MainSpec Spec.TitleSpec Proofs.Renamed Proofs.Titled
  Conform.Pipelines.

(** ** C125 *)
Theorem C125_manifest : forall r, Distinct r -> forall m trusted, lintManifest (titleManifest r m) trusted = lintManifest m trusted.
Proof. exact manifest_titled. Qed.
Print Assumptions C125_manifest.
Theorem C125_lint : forall r p trusted, Lint (RPipeline (titlePipeline r p)) trusted = Lint (RPipeline p) trusted.
Proof. exact lint_titled. Qed.
Print Assumptions C125_lint.
Theorem C125_compile : forall w c hostDir hostMount, Standard w c hostDir hostMount -> forall r p n,
  compileIn w c (titlePipeline r p) n =
    match compileIn w c p n with Ok (s, m) => Ok (titleSpec r s, m) | Err e => Err e | Panic => Panic end.
Proof. exact compile_titled. Qed.
Print Assumptions C125_compile.
Theorem C125_selected : forall r, Distinct r -> forall name l q, r "" = "" ->
  (Selected (r name) (map (titleResource r) l) q <-> exists p, q = titlePipeline r p /\ Selected name l p).
Proof. exact selected_iff. Qed.
Print Assumptions C125_selected.
(** Names that become equal are noticed. *)
Theorem C125_equal_refuted : exists r m, lintManifest m false = Ok tt /\ lintManifest (titleManifest r m) false <> Ok tt.
Proof.
  exists (fun _ => "default"), {| mf_resources := [RPipeline samplePipeline; RPipeline secondPipeline] |}.
  split; [reflexivity|]. cbn. discriminate.
Qed.
Print Assumptions C125_equal_refuted.
Example C125_case : let m := {| mf_resources := [RPipeline samplePipeline; RCron sampleCron; RPipeline secondPipeline] |} in
  Distinct (swap "default" "first") /\ lintManifest m false = Ok tt /\
  map pi_depends [titlePipeline (swap "default" "first") secondPipeline] = [["first"]] /\
  lintManifest {| mf_resources := [RPipeline (titlePipeline (swap "default" "first") samplePipeline); RPipeline secondPipeline] |} false =
    Err "linter: invalid or unknown pipeline dependency".
Proof. split; [exact (swap_inj "default" "first")|]. split; [reflexivity|]. split; reflexivity. Qed.
