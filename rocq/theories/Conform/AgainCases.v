(** * AgainCases.v: a machine with all converters, and files of other systems. *)
From Verif Require Import Model.Go Model.Types Model.Decode Model.Gitlab Model.Bitbucket Model.Legacy Model.Main Spec.MainSpec Spec.AgainSpec
  Conform.LegacyCases Conform.Machines Conform.ConvertCases Proofs.PrettyMore Proofs.PrettyClaims.

(** The first document of a text, with or without marks. *)
Fixpoint upToEnd (l : list string) : list string :=
  match l with
  | [] => []
  | x :: l' => if String.eqb x "..." then [""] else x :: upToEnd l'
  end.
Definition readFirst (s : string) : option node := readSample (join nl (upToEnd (split_on NL (trimPrefix s ("---" +++ nl))))).
Definition everyMachine : Machine :=
  {| mc_decoder := sampleDecoder; mc_mac := mc_mac sampleMachine;
     mc_bitbucket := bitbucketConvert (fun p s => Some (String.eqb p s)) (fun m => m) (fun m => m) (fun m => m) readFirst (formatted sampleMachine);
     mc_gitlab := gitlabConvert (fun _ => false) (fun _ m => m) readFirst (formatted sampleMachine);
     mc_legacy := Legacy.Convert noEnv someURL (fun _ => true) anyPipeline (fun p _ => Some p) (fun m => m) (fun _ m => m) noFloat (fun _ => "?")
                    readFirst (fun s => s) (formatted sampleMachine);
     mc_world := mc_world sampleMachine; mc_sprintFloat := noFloat; mc_bytesSize := noBytes; mc_specJSON := mc_specJSON sampleMachine;
     mc_env := fun _ => ""; mc_envOrd := fun m => m; mc_proxyOrd := fun m => m; mc_labelOrd := fun _ m => m;
     mc_writable := fun _ => true; mc_fatal := mc_fatal sampleMachine; mc_trace := "panic" |}.
Definition gitlabFile : string := "image: golang
stages:
- build
unit:
  stage: build
  script:
  - go test
".
Definition bitbucketFile : string := "image: node
pipelines:
  default:
  - step:
      name: publish
      script:
      - npm publish
".
(** A step whose only command has a line that looks like the start of a 0.8 file. *)
Definition trickyFile : string := "pipeline:
  build:
    image: golang
    commands:
    - ""a\npipeline:\nb""
".
Lemma everyMachine_converters : Converters everyMachine.
Proof. split; [do 5 eexists; reflexivity|]. split; [do 3 eexists; reflexivity|]. do 11 eexists. reflexivity. Qed.
Definition onceText : string := Eval vm_compute in
  x_stderr (run everyMachine (AConvert false "" "bitbucket-pipelines.yml") (oneFile "bitbucket-pipelines.yml" bitbucketFile)).
Definition twiceText : string := Eval vm_compute in
  x_stderr (run everyMachine (AConvert false "" "bitbucket-pipelines.yml") (oneFile "bitbucket-pipelines.yml" onceText)).
