(** * IgnoredCases.v: two files the compiler cannot tell apart. *)
From Verif Require Import Model.Go Model.Types Model.RawParse Model.Main Spec.CompileSpec Spec.MainSpec Spec.IgnoredSpec Proofs.PrettyClaims Proofs.Ignored Conform.LineDecoder Conform.Machines.

Definition plainFile : string := "kind: pipeline
name: default
steps:
- name: build
  image: golang
  commands:
  - go build
- name: publish
  build:
    context: docker
    image: octocat/hello
services:
- name: db
  image: redis
".
Definition fancyFile : string := "kind: secret
name: token
data: abc
---
kind: pipeline
name: default
trigger:
  branch:
    exclude:
    - master
depends_on:
- other
node:
  disk: ssd
concurrency:
  limit: 1
steps:
- name: build
  image: golang
  shell: bash
  push:
    image: octocat/other
  commands:
  - go build
- name: publish
  environment:
    GREETING: hello
  commands: []
  build:
    context: docker
    image: octocat/hello
    args:
      VERSION: one
    labels:
      author: octocat
services:
- name: db
  image: redis
  build:
    context: db
    image: octocat/db
".
Definition plainManifest : Manifest := Eval vm_compute in parsed plainFile.
Definition fancyManifest : Manifest := Eval vm_compute in parsed fancyFile.
Definition plainPipeline : Pipeline.
Proof. let x := eval vm_compute in (mf_resources plainManifest) in match x with RPipeline ?p :: _ => exact p end. Defined.
Definition fancyPipeline : Pipeline.
Proof. let x := eval vm_compute in (mf_resources fancyManifest) in match x with _ :: RPipeline ?p :: _ => exact p end. Defined.
Lemma plain_fancy : SamePipeline plainPipeline fancyPipeline.
Proof.
  do 7 (split; [reflexivity|]). split; [|]; repeat (constructor; [cbn; repeat split; reflexivity|]); constructor.
Qed.
Lemma plain_fancy' : SamePipeline fancyPipeline plainPipeline.
Proof.
  do 7 (split; [reflexivity|]). split; [|]; repeat (constructor; [cbn; repeat split; reflexivity|]); constructor.
Qed.
Lemma plain_selected : MainSpec.Selected "default" (mf_resources plainManifest) plainPipeline.
Proof. exists [], []. split; [reflexivity|]. split; [right; reflexivity|intros q []]. Qed.
Lemma fancy_selected : MainSpec.Selected "default" (mf_resources fancyManifest) fancyPipeline.
Proof. eexists [_], []. split; [reflexivity|]. split; [right; reflexivity|]. intros q [Q|[]]. discriminate. Qed.
Lemma plain_parse : parse (mc_decoder sampleMachine) plainFile = Ok plainManifest.
Proof. vm_compute. reflexivity. Qed.
Lemma fancy_parse : parse (mc_decoder sampleMachine) fancyFile = Ok fancyManifest.
Proof. vm_compute. reflexivity. Qed.
Notation compiled s := (x_stdout (run sampleMachine (ACompile "default" true (withEnv [] "abc") "a.yml") (oneFile "a.yml" s))) (only parsing).

Lemma same_output : compiled fancyFile = compiled plainFile.
Proof.
  pose proof (same_compile_command sampleMachine "default" true (withEnv [] "abc") "a.yml" (oneFile "a.yml" fancyFile) (oneFile "a.yml" plainFile) fancyFile plainFile
    fancyManifest plainManifest fancyPipeline plainPipeline eq_refl eq_refl fancy_parse plain_parse fancy_selected plain_selected plain_fancy') as (_ & E & _).
  exact E.
Qed.
Lemma not_same_output : compiled plainFile <> compiled (plainFile +++ "- name: cache" +++ nl +++ "  image: redis" +++ nl)%string.
Proof. intro E. apply (f_equal String.length) in E. revert E. vm_compute. discriminate. Qed.
