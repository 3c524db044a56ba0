(** * CrashCases.v: files with null entries, for the cases of C117. *)
From Verif Require Import Model.Go Model.Types Model.RawParse Model.Main Spec.MainSpec Conform.Pipelines Conform.Machines.

(** A null mount. *)
Definition nullMountFile : string := "kind: pipeline
name: default
steps:
- name: build
  image: golang
  volumes:
  - null
".
(** A null mount in a step without an image: the image is looked at first. *)
Definition lateMountFile : string := "kind: pipeline
name: default
steps:
- name: build
  volumes:
  - null
".
(** A null service behind a step that is refused. *)
Definition lateServiceFile : string := "kind: pipeline
name: default
steps:
- name: clone
  image: golang
services:
- null
".
Definition nullServiceFile : string := "kind: pipeline
name: default
steps:
- name: build
  image: golang
services:
- null
".
Definition pipelineOf (text : string) : Pipeline :=
  match parse (mc_decoder sampleMachine) text with
  | Ok m => match mf_resources m with RPipeline p :: _ => p | _ => samplePipeline end
  | _ => samplePipeline
  end.
Definition nullMount : Pipeline := Eval vm_compute in pipelineOf nullMountFile.
Definition nullService : Pipeline := Eval vm_compute in pipelineOf nullServiceFile.
Definition lintStatus (trusted : bool) (text : string) : Z := x_status (run sampleMachine (ALint trusted "a.yml") (oneFile "a.yml" text)).
Definition compileStatus (text : string) : Z := x_status (run sampleMachine (ACompile "" true (withEnv [] "") "a.yml") (oneFile "a.yml" text)).
Definition formatStatus (text : string) : Z := x_status (run sampleMachine (AFormat false false "a.yml") (oneFile "a.yml" text)).
