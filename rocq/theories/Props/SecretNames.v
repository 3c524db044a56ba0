(** * SecretNames.v: theorem C127. *)
From Verif Require Import Model.Go Model.Types Model.Cond Model.Engine Model.Image Model.Dind Model.Compiler Model.Lint Spec.CompileSpec Spec.SecretNameSpec
  Proofs.SecretNames Conform.Pipelines Conform.Worlds.

(** ** C127 *)
Theorem C127_lint : forall r lit val p trusted, Lint (RPipeline (askPipeline r lit val p)) trusted = Lint (RPipeline p) trusted.
Proof. exact lint_asked. Qed.
Print Assumptions C127_lint.
Theorem C127_compile : forall r lit val, SecretRenaming r -> forall w c hostDir hostMount, Standard w c hostDir hostMount -> BlindToSecrets r lit val c ->
  forall p n, compileIn w c (askPipeline r lit val p) n =
    match compileIn w c p n with Ok (s, m) => Ok (askSpec r s, m) | Err e => Err e | Panic => Panic end.
Proof. exact compile_asked. Qed.
Print Assumptions C127_compile.
Theorem C127_callbacks : forall r lit val c av images glob data,
  co_privileged c = Some (DindFunc av images) -> co_skip c = Some (SkipFunc glob data) -> BlindToSecrets r lit val c.
Proof. exact package_blind_secrets. Qed.
Print Assumptions C127_callbacks.
(** A secret without a name is no secret: the literal beside it counts. *)
Definition literals (x : outcome (Spec * nat)) : list (option string) :=
  match x with Ok (s, _) => map (fun t => match st_envs t with Some e => mget "TOKEN" e | None => None end) (sp_steps s) | _ => [] end.
Theorem C127_empty_refuted : exists r lit val w c p, Standard w c None false /\ BlindToSecrets r lit val c /\
  compileIn w c (askPipeline r lit val p) 0 <>
    match compileIn w c p 0 with Ok (s, m) => Ok (askSpec r s, m) | Err e => Err e | Panic => Panic end.
Proof.
  exists (fun _ => ""), "open", VNull, sampleWorld, defaultCompiler, samplePipeline. split; [exact (defaultCompiler_Standard sampleWorld)|].
  split; [intro x; split; exact I|]. intro E. apply (f_equal literals) in E. vm_compute in E. discriminate E.
Qed.
Print Assumptions C127_empty_refuted.
Example C127_case : SecretRenaming (fun a => a +++ "_2")%string /\ BlindToSecrets (fun a => a +++ "_2")%string "open" VNull defaultCompiler /\
  map snd (ct_environment (askContainer (fun a => a +++ "_2")%string "open" VNull sampleBuild)) =
    [Some {| v_value := "linux"; v_secret := "" |}; Some {| v_value := "open"; v_secret := "token_2" |}] /\
  literals (compileIn sampleWorld defaultCompiler (askPipeline (fun a => a +++ "_2")%string "open" VNull samplePipeline) 0) = [None; None; None; None].
Proof.
  split; [intros [|a s] H; [congruence|discriminate]|]. split; [intro x; split; exact I|]. split; [reflexivity|]. vm_compute. reflexivity.
Qed.
