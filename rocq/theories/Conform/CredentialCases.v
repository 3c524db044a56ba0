(** * CredentialCases.v: commands that differ in credentials. *)
From Verif Require Import Model.Go Model.Types Model.Engine Model.Main Spec.MainSpec Spec.CredentialSpec Conform.Pipelines Conform.Machines.

(** Prints what is kept of a spec: the variables of its steps, its registries, secrets and files. *)
Definition printVar (x : string * string) : string := (fst x +++ "=" +++ snd x)%string.
Definition printAll (s : Spec) : string :=
  (join "," (match sp_docker s with Some d => map (fun a => au_username a +++ ":" +++ au_password a)%string (dc_auths d) | None => [] end) +++ ";" +++
   join "," (map (fun x => md_name (es_meta x) +++ "=" +++ es_data x)%string (sp_secrets s)) +++ ";" +++
   join "," (map (fun f => md_name (fi_meta f) +++ "=" +++ fi_data f)%string (sp_files s)) +++ ";" +++
   join "," (flat_map (fun t => match st_envs t with Some e => map printVar (filter (fun x => String.prefix "CI_NETRC" (fst x)) e) | None => [] end) (sp_steps s)))%string.
Definition printWith (p : Spec -> string) : Machine :=
  {| mc_decoder := mc_decoder sampleMachine; mc_mac := mc_mac sampleMachine; mc_bitbucket := mc_bitbucket sampleMachine;
     mc_gitlab := mc_gitlab sampleMachine; mc_legacy := mc_legacy sampleMachine; mc_world := mc_world sampleMachine;
     mc_sprintFloat := mc_sprintFloat sampleMachine; mc_bytesSize := mc_bytesSize sampleMachine; mc_specJSON := p;
     mc_env := fun _ => ""; mc_envOrd := fun m => m; mc_proxyOrd := fun m => m; mc_labelOrd := fun _ m => m;
     mc_writable := fun _ => true; mc_fatal := mc_fatal sampleMachine; mc_trace := "panic" |}.
Definition credentialFlags (registry secret git password : string) : CompileFlags :=
  {| cf_trusted := false; cf_label := []; cf_volume := []; cf_network := []; cf_env := [];
     cf_dind := []; cf_event := "push"; cf_repo := ""; cf_remote := ""; cf_branch := "master";
     cf_ref := ""; cf_sha := ""; cf_creds := [{| u_user := None; u_host := ""; u_string := git |}]; cf_cron := "";
     cf_instance := ""; cf_deploy := ""; cf_secret := [("token", secret)];
     cf_registry := [{| u_user := Some ("octocat", Some registry); u_host := "docker.io"; u_string := "" |}];
     cf_username := "octocat"; cf_password := password; cf_machine := "github.com"; cf_memlimit := 0 |}.
Definition credentialFile : string := "kind: pipeline
name: default
steps:
- name: build
  image: golang
".
Definition credentialRun (p : Spec -> string) (fl : CompileFlags) : Exit :=
  run (printWith p) (ACompile "" true fl ".drone.yml") (oneFile ".drone.yml" credentialFile).
Lemma first_run : x_status (credentialRun printAll (credentialFlags "r1" "s1" "g1" "p1")) = 0%Z /\
  x_stdout (credentialRun printAll (credentialFlags "r1" "s1" "g1" "p1")) = "octocat:r1;token=s1;.git-credentials=g1
;CI_NETRC_MACHINE=github.com,CI_NETRC_USERNAME=octocat,CI_NETRC_PASSWORD=p1,CI_NETRC_MACHINE=github.com,CI_NETRC_USERNAME=octocat,CI_NETRC_PASSWORD=p1".
Proof. split; vm_compute; reflexivity. Qed.
Lemma second_run : x_status (credentialRun printAll (credentialFlags "r2" "s2" "g2" "p2")) = 0%Z /\
  x_stdout (credentialRun printAll (credentialFlags "r2" "s2" "g2" "p2")) = "octocat:r2;token=s2;.git-credentials=g2
;CI_NETRC_MACHINE=github.com,CI_NETRC_USERNAME=octocat,CI_NETRC_PASSWORD=p2,CI_NETRC_MACHINE=github.com,CI_NETRC_USERNAME=octocat,CI_NETRC_PASSWORD=p2".
Proof. split; vm_compute; reflexivity. Qed.
Lemma hidden_runs : x_stdout (credentialRun (fun s => printAll (hide s)) (credentialFlags "r1" "s1" "g1" "p1")) =
    "octocat:;token=;.git-credentials=;CI_NETRC_MACHINE=github.com,CI_NETRC_USERNAME=octocat,CI_NETRC_PASSWORD=,CI_NETRC_MACHINE=github.com,CI_NETRC_USERNAME=octocat,CI_NETRC_PASSWORD=" /\
  x_stdout (credentialRun (fun s => printAll (hide s)) (credentialFlags "r1" "s1" "g1" "")) = "octocat:;token=;.git-credentials=;".
Proof. split; vm_compute; reflexivity. Qed.
Lemma runs_differ : x_stdout (credentialRun printAll (credentialFlags "r1" "s1" "g1" "p1")) <> x_stdout (credentialRun printAll (credentialFlags "r2" "s2" "g2" "p2")).
Proof. destruct first_run as [_ E1], second_run as [_ E2]. rewrite E1, E2. discriminate. Qed.
Lemma hidden_differ : x_stdout (credentialRun (fun s => printAll (hide s)) (credentialFlags "r1" "s1" "g1" "p1")) <>
  x_stdout (credentialRun (fun s => printAll (hide s)) (credentialFlags "r1" "s1" "g1" "")).
Proof. destruct hidden_runs as [E1 E2]. rewrite E1, E2. discriminate. Qed.
Lemma hidden_prints s s' : hide s = hide s' -> mc_specJSON (printWith (fun s => printAll (hide s))) s = mc_specJSON (printWith (fun s => printAll (hide s))) s'.
Proof. intro H. exact (f_equal printAll H). Qed.
Lemma flags_differ : SameButCredentials (credentialFlags "r1" "s1" "g1" "p1") (credentialFlags "r2" "s2" "g2" "p2").
Proof. repeat split; try discriminate. constructor; [|constructor]. repeat split. Qed.
