(** * ConvertCases.v: 0.8 files for the cases beside the theorems about converting and checking. *)
From Verif Require Import Model.Go Model.Types Model.Decode Model.Convert Model.Legacy Model.Main Spec.YamlSpec Spec.CompileSpec Spec.MainSpec
  Spec.LegacySpec Proofs.PrettyMore Proofs.PrettyClaims Conform.LegacyCases Conform.Machines.

(** The sample machine with the converter for 0.8 files. *)
Definition readSample : string -> option node := readYaml plainResolve.
Definition anyPipeline (_ : Pipeline) : string := "".
Definition convertMachine : Machine :=
  {| mc_decoder := sampleDecoder; mc_mac := mc_mac sampleMachine; mc_bitbucket := mc_bitbucket sampleMachine;
     mc_gitlab := mc_gitlab sampleMachine;
     mc_legacy := Legacy.Convert noEnv someURL (fun _ => true) anyPipeline (fun p _ => Some p) (fun m => m) (fun _ m => m) noFloat (fun _ => "?")
                    readSample (fun s => s) (formatted sampleMachine);
     mc_world := mc_world sampleMachine; mc_sprintFloat := noFloat; mc_bytesSize := noBytes; mc_specJSON := mc_specJSON sampleMachine;
     mc_env := fun _ => ""; mc_envOrd := fun m => m; mc_proxyOrd := fun m => m; mc_labelOrd := fun _ m => m;
     mc_writable := fun _ => true; mc_fatal := mc_fatal sampleMachine; mc_trace := "panic" |}.
Definition oldFile : string := "pipeline:
  build:
    image: golang
    commands:
    - go test
  publish:
    image: plugins/docker
    secrets:
    - password
    when:
      branch:
      - master
services:
  database:
    image: postgres
".
(** A step with the name of the clone step. *)
Definition cloneFile : string := "pipeline:
  clone:
    image: plugins/git
  build:
    image: golang
".
Definition oldConfig : LConfig := Eval vm_compute in
  match readSample oldFile with
  | Some n => match decLConfig noFloat (fun _ => "?") n with Some g => g | None => config [] [] [] [] end
  | None => config [] [] [] []
  end.
Definition oldManifest : Manifest := Eval vm_compute in
  match toManifest noEnv someURL (fun _ => true) anyPipeline (fun p _ => Some p) (fun m => m) (fun _ m => m) NNull oldConfig "https://github.com/a/b" with
  | Ok m => m | _ => {| mf_resources := [] |} end.
