(** * Pipelines.v: sample pipelines for the concrete cases beside the theorems. *)
From Verif Require Import Model.Go Model.Types Spec.LintSpec.

Definition container (name image : string) (build : option Build) (commands deps : list string)
    (mounts : list (option VolumeMount)) : Container :=
  {| ct_build := build; ct_command := []; ct_commands := commands; ct_detach := false;
     ct_depends := deps; ct_devices := []; ct_dns := []; ct_dns_search := [];
     ct_entrypoint := []; ct_environment := [("GOOS", Some {| v_value := "linux"; v_secret := "" |});
                                             ("TOKEN", Some {| v_value := ""; v_secret := "token" |})];
     ct_extra_hosts := []; ct_failure := "";
     ct_image := image; ct_network := ""; ct_name := name; ct_ports := [Some {| po_port := 80; po_host := 0; po_protocol := "" |}];
     ct_privileged := false;
     ct_pull := ""; ct_push := None; ct_resources := None; ct_settings := []; ct_shell := "";
     ct_user := ""; ct_volumes := mounts; ct_when := noConds; ct_working_dir := "" |}.
Definition privileged (c : Container) : Container :=
  {| ct_build := ct_build c; ct_command := ct_command c; ct_commands := ct_commands c; ct_detach := ct_detach c;
     ct_depends := ct_depends c; ct_devices := ct_devices c; ct_dns := ct_dns c; ct_dns_search := ct_dns_search c;
     ct_entrypoint := ct_entrypoint c; ct_environment := ct_environment c; ct_extra_hosts := ct_extra_hosts c;
     ct_failure := ct_failure c; ct_image := ct_image c; ct_network := ct_network c; ct_name := ct_name c;
     ct_ports := ct_ports c; ct_privileged := true; ct_pull := ct_pull c; ct_push := ct_push c;
     ct_resources := ct_resources c; ct_settings := ct_settings c; ct_shell := ct_shell c; ct_user := ct_user c;
     ct_volumes := ct_volumes c; ct_when := ct_when c; ct_working_dir := ct_working_dir c |}.

Definition sampleMount : VolumeMount := {| vm_name := "cache"; vm_path := "/cache" |}.
Definition sampleBuild : Container := container "build" "golang:1.12" None ["go build"; "go vet"] [] [Some sampleMount].
Definition sampleTest : Container := container "test" "golang" None ["go test"] ["build"; "clone"] [].
Definition sampleDb : Container := container "db" "postgres" None [] [] [].
Definition selfish : Container := container "loop" "golang" None ["go test"] ["loop"] [].
Definition sampleVolume : Volume :=
  {| vo_name := "cache"; vo_empty := Some {| ve_medium := ""; ve_size := 0 |}; vo_host := None |}.
Definition samplePipeline : Pipeline :=
  {| pi_version := ""; pi_kind := "pipeline"; pi_type := "docker"; pi_name := "default"; pi_clone := noClone;
     pi_concurrency := 0; pi_depends := []; pi_node := [];
     pi_platform := {| pl_os := "linux"; pl_arch := "arm64"; pl_variant := ""; pl_version := "" |};
     pi_pull_secrets := []; pi_services := [Some sampleDb]; pi_steps := [Some sampleBuild; Some sampleTest];
     pi_trigger := noConds; pi_volumes := [Some sampleVolume]; pi_workspace := noWorkspace |}.
Definition set_steps (p : Pipeline) (steps : list (option Container)) : Pipeline :=
  {| pi_version := pi_version p; pi_kind := pi_kind p; pi_type := pi_type p; pi_name := pi_name p; pi_clone := pi_clone p;
     pi_concurrency := pi_concurrency p; pi_depends := pi_depends p; pi_node := pi_node p;
     pi_platform := pi_platform p; pi_pull_secrets := pi_pull_secrets p; pi_services := pi_services p;
     pi_steps := steps; pi_trigger := pi_trigger p; pi_volumes := pi_volumes p; pi_workspace := pi_workspace p |}.
Definition without_services (p : Pipeline) : Pipeline :=
  {| pi_version := pi_version p; pi_kind := pi_kind p; pi_type := pi_type p; pi_name := pi_name p; pi_clone := pi_clone p;
     pi_concurrency := pi_concurrency p; pi_depends := pi_depends p; pi_node := pi_node p;
     pi_platform := pi_platform p; pi_pull_secrets := pi_pull_secrets p; pi_services := [];
     pi_steps := pi_steps p; pi_trigger := pi_trigger p; pi_volumes := pi_volumes p; pi_workspace := pi_workspace p |}.
Definition with_steps (p : Pipeline) (steps : list Container) : Pipeline := set_steps p (map Some steps).
Definition secondPipeline : Pipeline :=
  {| pi_version := ""; pi_kind := "pipeline"; pi_type := "docker"; pi_name := "second"; pi_clone := noClone;
     pi_concurrency := 0; pi_depends := ["default"]; pi_node := []; pi_platform := noPlatform;
     pi_pull_secrets := []; pi_services := []; pi_steps := [Some sampleBuild];
     pi_trigger := noConds; pi_volumes := []; pi_workspace := noWorkspace |}.
Definition sampleCron : Cron :=
  {| cr_version := ""; cr_kind := "cron"; cr_type := ""; cr_name := "nightly"; cr_schedule := "@daily";
     cr_branch := "main"; cr_target := "" |}.
Lemma samplePipeline_NoNulls : NoNulls samplePipeline [sampleBuild; sampleTest] [sampleDb] [sampleVolume].
Proof. repeat split; repeat constructor; cbn; intuition discriminate. Qed.
