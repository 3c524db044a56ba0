(** * BuildCases.v: the command for two builds. *)
From Coq Require Import Permutation.
From Verif Require Import Model.Go Model.Types Model.Cond Model.Engine Model.Main Spec.MainSpec Spec.BuildSpec Conform.Pipelines Conform.Machines Conform.CredentialCases.

Definition buildFlags (event ref : string) : CompileFlags :=
  {| cf_trusted := false; cf_label := []; cf_volume := []; cf_network := []; cf_env := [];
     cf_dind := []; cf_event := event; cf_repo := ""; cf_remote := ""; cf_branch := "master";
     cf_ref := ref; cf_sha := ""; cf_creds := []; cf_cron := "";
     cf_instance := ""; cf_deploy := ""; cf_secret := [("token", "s")];
     cf_registry := []; cf_username := ""; cf_password := ""; cf_machine := ""; cf_memlimit := 0 |}.
Definition buildFile : string := "kind: pipeline
name: default
steps:
- name: build
  image: golang
- name: release
  image: golang
  when:
    event:
    - tag
".
Definition printPolicy (p : RunPolicy) : string :=
  match p with RunOnSuccess => "success" | RunOnFailure => "failure" | RunAlways => "always" | RunNever => "never" end.
Definition printBuild (s : Spec) : string :=
  join "," (map (fun t => md_name (st_meta t) +++ ":" +++ printPolicy (st_policy t) +++ ":" +++
    join " " (match st_envs t with Some e => map fst (filter (fun x => String.prefix "DRONE_TAG" (fst x)) e) | None => [] end))%string (sp_steps s)).
Definition buildRun (fl : CompileFlags) : Exit :=
  run (printWith printBuild) (ACompile "" true fl ".drone.yml") (oneFile ".drone.yml" buildFile).
Lemma push_run : x_status (buildRun (buildFlags "push" "refs/heads/master")) = 0%Z /\
  x_stdout (buildRun (buildFlags "push" "refs/heads/master")) = "clone:success:,build:success:,release:never:".
Proof. split; vm_compute; reflexivity. Qed.
Lemma tag_run : x_stdout (buildRun (buildFlags "tag" "refs/tags/v1")) = "clone:success:DRONE_TAG,build:success:DRONE_TAG,release:success:DRONE_TAG".
Proof. vm_compute; reflexivity. Qed.
Lemma builds_differ : SameButBuild (buildFlags "push" "refs/heads/master") (buildFlags "tag" "refs/tags/v1").
Proof. repeat split. Qed.
Lemma build_orders : Orders (printWith printBuild).
Proof. repeat split; intros; apply Permutation_refl. Qed.
Lemma build_outputs : x_stdout (buildRun (buildFlags "push" "refs/heads/master")) <> x_stdout (buildRun (buildFlags "tag" "refs/tags/v1")).
Proof. destruct push_run as [_ E]. rewrite E, tag_run. discriminate. Qed.
